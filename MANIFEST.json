{
 "claims": [
  {
   "property": "C01",
   "status": "proved",
   "theorems": [
    "C01_freq_wl_roundtrip",
    "C01_phys_wl_roundtrip",
    "C01_phys_freq_roundtrip",
    "C01_freq_to_wl_decreasing",
    "C01_phys_freq_decreasing"
   ],
   "note": ""
  },
  {
   "property": "C02",
   "status": "proved",
   "theorems": [
    "C02_accepted_keys",
    "C02_keyerror"
   ],
   "note": ""
  },
  {
   "property": "C03",
   "status": "proved",
   "theorems": [
    "C03_accepted_types",
    "C03_typeerror"
   ],
   "note": ""
  },
  {
   "property": "C04",
   "status": "proved",
   "theorems": [
    "C04_accepted_ranges",
    "C04_complete",
    "C04_complete_fdtd",
    "C04_wavelengths_positive_refuted"
   ],
   "note": ""
  },
  {
   "property": "C05",
   "status": "proved",
   "theorems": [
    "C05_zero_rejected",
    "C05_thickness_sign_blind",
    "C05_spectrum_unchecked",
    "C05_positive_thickness_refuted",
    "C05_nonnegative_spectrum_refuted"
   ],
   "note": ""
  },
  {
   "property": "C06",
   "status": "proved",
   "theorems": [
    "C06_target_frequencies",
    "C06_linear_spacing",
    "C06_log_ratio",
    "C06_unknown_distribution"
   ],
   "note": ""
  },
  {
   "property": "C07",
   "status": "proved",
   "theorems": [
    "C07_frequency_points"
   ],
   "note": ""
  },
  {
   "property": "C08",
   "status": "proved",
   "theorems": [
    "C08_nearest_row",
    "C08_total",
    "C08_modulus",
    "C08_all_frequencies"
   ],
   "note": ""
  },
  {
   "property": "C09",
   "status": "proved",
   "theorems": [
    "C09_lookup",
    "C09_unknown_name",
    "C09_single_material",
    "C09_single_frequency",
    "C09_single_both",
    "C09_all_skipped",
    "C09_no_frequencies"
   ],
   "note": ""
  },
  {
   "property": "C10",
   "status": "proved",
   "theorems": [
    "C10_minimiser",
    "C10_exact_match",
    "C10_distance_zero"
   ],
   "note": ""
  },
  {
   "property": "C11",
   "status": "proved",
   "theorems": [
    "C11_shape",
    "C11_uniform",
    "C11_square",
    "C11_circle",
    "C11_square_mirror_x",
    "C11_square_mirror_y",
    "C11_circle_mirror",
    "C11_square_size_antitone",
    "C11_square_single_column"
   ],
   "note": ""
  },
  {
   "property": "C12",
   "status": "proved",
   "theorems": [
    "C12_avoid_zero_value",
    "C12_avoid_zero_grid",
    "C12_regression_away_from_zero",
    "C12_noise_refuted",
    "C12_voxel_refuted"
   ],
   "note": ""
  },
  {
   "property": "C13",
   "status": "proved",
   "theorems": [
    "C13_regression_range",
    "C13_noise",
    "C13_real_affine",
    "C13_imag_upper",
    "C13_imag_max_reached_refuted"
   ],
   "note": ""
  },
  {
   "property": "C14",
   "status": "proved",
   "theorems": [
    "C14_shape",
    "C14_blocks",
    "C14_bad_oversampling",
    "C14_bad_output_count",
    "C14_every_block"
   ],
   "note": ""
  },
  {
   "property": "C15",
   "status": "proved",
   "theorems": [
    "C15_channels",
    "C15_single_frequency",
    "C15_documented_layout_refuted"
   ],
   "note": ""
  },
  {
   "property": "C16",
   "status": "proved",
   "theorems": [
    "C16_inputs",
    "C16_layers",
    "C16_equal_thickness",
    "C16_log_range",
    "C16_dispatch"
   ],
   "note": ""
  },
  {
   "property": "C17",
   "status": "proved",
   "theorems": [
    "C17_weights_and_mixture",
    "C17_single_frequency_defect",
    "C17_softmax"
   ],
   "note": ""
  },
  {
   "property": "C18",
   "status": "proved",
   "theorems": [
    "C18_value",
    "C18_distance",
    "C18_triangle_L1",
    "C18_empty",
    "C18_length_mismatch_refuted"
   ],
   "note": ""
  },
  {
   "property": "C19",
   "status": "proved",
   "theorems": [
    "C19_flag",
    "C19_pair",
    "C19_sum_one_refuted"
   ],
   "note": ""
  },
  {
   "property": "C20",
   "status": "proved",
   "theorems": [
    "C20_regularisation",
    "C20_use_max"
   ],
   "note": ""
  },
  {
   "property": "C21",
   "status": "proved",
   "theorems": [
    "C21_logs",
    "C21_window_mean"
   ],
   "note": ""
  },
  {
   "property": "C22",
   "status": "proved",
   "theorems": [
    "C22_returned_general",
    "C22_returned_best",
    "C22_returned_live",
    "C22_best_unphysical_refuted"
   ],
   "note": ""
  },
  {
   "property": "C23",
   "status": "proved",
   "theorems": [
    "C23_learning_rate",
    "C23_error_iteration",
    "C23_other_exceptions_propagate"
   ],
   "note": ""
  },
  {
   "property": "C24",
   "status": "proved",
   "theorems": [
    "C24_normalise",
    "C24_nan_passes",
    "C24_unphysical_returned_refuted"
   ],
   "note": ""
  },
  {
   "property": "C25",
   "status": "proved",
   "theorems": [
    "C25_outcome",
    "C25_short",
    "C25_cut_position",
    "C25_two_windows_raise",
    "C25_window_zero_raises",
    "C25_steady_state_error_unreachable"
   ],
   "note": ""
  },
  {
   "property": "C26",
   "status": "proved",
   "theorems": [
    "C26_peaks"
   ],
   "note": ""
  },
  {
   "property": "C27",
   "status": "proved",
   "theorems": [
    "C27_power_between_peaks",
    "C27_power_few_peaks",
    "C27_nonnegative",
    "C27_scale_invariant",
    "C27_quadratic_in_amplitude",
    "C27_identity",
    "C27_dark_free_space",
    "C27_result",
    "C27_identical_signals_refuted"
   ],
   "note": ""
  },
  {
   "property": "C28",
   "status": "proved",
   "theorems": [
    "C28_valid_config_proper",
    "C28_positions",
    "C28_free_space",
    "C28_layers",
    "C28_missing_thickness",
    "C28_thin_pml_raises",
    "C28_detector_before_pml_refuted"
   ],
   "note": ""
  },
  {
   "property": "C29",
   "status": "proved",
   "theorems": [
    "C29_entries",
    "C29_returned_iff",
    "C29_first_error",
    "C29_entry_value",
    "C29_signals",
    "C29_config_and_second_call",
    "C29_negative_permittivity_raises",
    "C29_empty_slice_raises",
    "C29_point_source_rows_raise"
   ],
   "note": ""
  },
  {
   "property": "C30",
   "status": "proved",
   "theorems": [
    "C30_curls_adjoint",
    "C30_curl_bound"
   ],
   "note": ""
  },
  {
   "property": "C31",
   "status": "proved",
   "theorems": [
    "C31_energy_balance",
    "C31_energy_conserved",
    "C31_bounded_for_ever",
    "C31_every_cell_bounded",
    "C31_default_courant",
    "C31_accepted_courant",
    "C31_negative_courant_accepted",
    "C31_interior_sources_keep_cavity_closed",
    "C31_pulsed_cavity_bounded",
    "C31_energy_without_wall_condition_refuted"
   ],
   "note": ""
  },
  {
   "property": "C32",
   "status": "proved",
   "theorems": [
    "C32_superposition",
    "C32_sum_with_pml_refuted"
   ],
   "note": ""
  },
  {
   "property": "C33",
   "status": "proved",
   "theorems": [
    "C33_one_cell",
    "C33_plane_or_source",
    "C33_far_detectors"
   ],
   "note": ""
  },
  {
   "property": "C34",
   "status": "proved",
   "theorems": [
    "C34_divergence_constant"
   ],
   "note": ""
  },
  {
   "property": "C35",
   "status": "proved",
   "theorems": [
    "C35_run_splits",
    "C35_nonpositive_runs_do_nothing",
    "C35_run_counts",
    "C35_run_seconds",
    "C35_reset",
    "C35_reset_reproduces",
    "C35_reset_with_pml_refuted"
   ],
   "note": ""
  },
  {
   "property": "C36",
   "status": "proved",
   "theorems": [
    "C36_current_value",
    "C36_current_mean_refuted",
    "C36_field_records",
    "C36_current_records"
   ],
   "note": ""
  },
  {
   "property": "C37",
   "status": "proved",
   "theorems": [
    "C37_names_unique",
    "C37_taken_name_refused",
    "C37_member_names_refused",
    "C37_fresh_names",
    "C37_registered",
    "C37_rejected_blocks_every_step",
    "C37_rejected_object_harmless",
    "C37_rejected_absorbing_refuted"
   ],
   "note": ""
  },
  {
   "property": "C38",
   "status": "proved",
   "theorems": [
    "C38_faces_equal",
    "C38_one_boundary_per_face",
    "C38_second_periodic_raises_but_acts",
    "C38_periodic_placed",
    "C38_second_pml_raises"
   ],
   "note": ""
  },
  {
   "property": "C39",
   "status": "proved",
   "theorems": [
    "C39_convolution",
    "C39_factors",
    "C39_outward_electric",
    "C39_outward_magnetic",
    "C39_high_side_hole",
    "C39_memory_bounded",
    "C39_placed_dissipative",
    "C39_placed_empty"
   ],
   "note": ""
  },
  {
   "property": "C40",
   "status": "proved",
   "theorems": [
    "C40_silence",
    "C40_pml_adds_constant"
   ],
   "note": ""
  },
  {
   "property": "C41",
   "status": "proved",
   "theorems": [
    "C41_absorbing_damps",
    "C41_zero_conductivity",
    "C41_objects_keep_passive",
    "C41_plain_object_keeps_absorption"
   ],
   "note": ""
  },
  {
   "property": "C42",
   "status": "proved",
   "theorems": [
    "C42_distance_nearest",
    "C42_index_kept",
    "C42_negative_distance_shifted",
    "C42_line_visits_each_y_once",
    "C42_line_negative_start",
    "C42_block_includes_stop",
    "C42_open_block_blocks",
    "C42_object_acts_on_slices",
    "C42_object_single_index",
    "C42_object_last_index",
    "C42_absorbing_single_index",
    "C42_object_step_refused",
    "C42_pml_refused"
   ],
   "note": ""
  },
  {
   "property": "C43",
   "status": "proved",
   "theorems": [
    "C43_point_emits",
    "C43_line_emits",
    "C43_continuous_point",
    "C43_continuous_periodic",
    "C43_signal_bounded",
    "C43_hanning_over",
    "C43_hanning_end",
    "C43_ricker_point_raises",
    "C43_profile_positive",
    "C43_profile_sum",
    "C43_line_source_across",
    "C43_profile_symmetric",
    "C43_profile_decreases"
   ],
   "note": ""
  },
  {
   "property": "C44",
   "status": "proved",
   "theorems": [
    "C44_dual",
    "C44_unique",
    "C44_involution",
    "C44_dependent_raises",
    "C44_independent"
   ],
   "note": ""
  },
  {
   "property": "C45",
   "status": "proved",
   "theorems": [
    "C45_selected",
    "C45_complete_shells",
    "C45_symmetric",
    "C45_maximal",
    "C45_single_order",
    "C45_five_on_square",
    "C45_nonpositive_raises",
    "C45_other_arguments_raise"
   ],
   "note": ""
  },
  {
   "property": "C46",
   "status": "proved",
   "theorems": [
    "C46_wave_vectors",
    "C46_uniform_modes",
    "C46_uniform_eigen",
    "C46_patterned_eigen",
    "C46_root_unique",
    "C46_root_decays"
   ],
   "note": ""
  },
  {
   "property": "C47",
   "status": "proved",
   "theorems": [
    "C47_bookkeeping",
    "C47_pattern_numbers"
   ],
   "note": ""
  },
  {
   "property": "C48",
   "status": "proved",
   "theorems": [
    "C48_entry",
    "C48_defined",
    "C48_shift_invariant",
    "C48_diagonal",
    "C48_linear",
    "C48_hermitian",
    "C48_constant",
    "C48_epsilon",
    "C48_epsilon_constant",
    "C48_epsilon_not_hermitian"
   ],
   "note": ""
  },
  {
   "property": "C49",
   "status": "proved",
   "theorems": [
    "C49_maps",
    "C49_exists",
    "C49_unique",
    "C49_trivial",
    "C49_reversed",
    "C49_merge",
    "C49_exterior"
   ],
   "note": ""
  },
  {
   "property": "C50",
   "status": "proved",
   "theorems": [
    "C50_total",
    "C50_by_order",
    "C50_orders_sum",
    "C50_one_way",
    "C50_scaled"
   ],
   "note": ""
  },
  {
   "property": "C51",
   "status": "proved",
   "theorems": [
    "C51_same_stack",
    "C51_vacuum",
    "C51_fresnel",
    "C51_airy",
    "C51_films",
    "C51_lossless",
    "C51_setup",
    "C51_solves",
    "C51_energy",
    "C51_uniform_total",
    "C51_patterned_total",
    "C51_lossless_solves"
   ],
   "note": ""
  },
  {
   "property": "C52",
   "status": "proved",
   "theorems": [
    "C52_object"
   ],
   "note": ""
  },
  {
   "property": "C53",
   "status": "proved",
   "theorems": [
    "C53_nan",
    "C53_shapes",
    "C53_entries",
    "C53_first_error",
    "C53_local",
    "C53_invalid",
    "C53_valid",
    "C53_none",
    "C53_unknown",
    "C53_fdtd",
    "C53_trcwa",
    "C53_frequencies"
   ],
   "note": ""
  },
  {
   "property": "C54",
   "status": "proved",
   "theorems": [
    "C54_siren",
    "C54_siren_input",
    "C54_siren_omega",
    "C54_siren_weights",
    "C54_siren_value",
    "C54_nerf_value",
    "C54_nerf_built",
    "C54_nerf",
    "C54_nerf_input",
    "C54_nerf_three",
    "C54_nerf_four",
    "C54_voxel",
    "C54_voxel_classification",
    "C54_unknown",
    "C54_rows",
    "C54_regression",
    "C54_fails",
    "C54_three"
   ],
   "note": ""
  },
  {
   "property": "C55",
   "status": "proved",
   "theorems": [
    "C55_mean",
    "C55_between",
    "C55_linear"
   ],
   "note": ""
  },
  {
   "property": "C56",
   "status": "proved",
   "theorems": [
    "C56_kept",
    "C56_replaced",
    "C56_same_file",
    "C56_file_name",
    "C56_slash_refuted",
    "C56_succeeds",
    "C56_round_trip"
   ],
   "note": ""
  },
  {
   "property": "C57",
   "status": "proved",
   "theorems": [
    "C57_sim_world_E",
    "C57_sim_world_H",
    "C57_sim_world_linear"
   ],
   "note": ""
  },
  {
   "property": "C58",
   "status": "proved",
   "theorems": [
    "C58_accepts",
    "C58_documented",
    "C58_any_attribute",
    "C58_no_gpu",
    "C58_unknown_type",
    "C58_no_nameerror",
    "C58_unchanged",
    "C58_half_changed",
    "C58_unchanged_refuted",
    "C58_last",
    "C58_cpu"
   ],
   "note": ""
  },
  {
   "property": "C59",
   "status": "proved",
   "theorems": [
    "C59_announced_as_if_first",
    "C59_announced_is_actual_refuted",
    "C59_within_one_gridpoint"
   ],
   "note": ""
  },
  {
   "property": "C60",
   "status": "proved",
   "theorems": [
    "C60_domain_border",
    "C60_too_small",
    "C60_zero_border"
   ],
   "note": ""
  },
  {
   "property": "C61",
   "status": "proved",
   "theorems": [
    "C61_when_a_run_raises"
   ],
   "note": ""
  },
  {
   "property": "C62",
   "status": "proved",
   "theorems": [
    "C62_vacuum_simulation_is_free_space",
    "C62_vacuum_no_reflection",
    "C62_vacuum_spectrum"
   ],
   "note": ""
  },
  {
   "property": "C63",
   "status": "proved",
   "theorems": [
    "C63_invalid",
    "C63_user",
    "C63_frequencies",
    "C63_outputs",
    "C63_model",
    "C63_restart",
    "C63_starts",
    "C63_regression",
    "C63_classification",
    "C63_voxel",
    "C63_omega",
    "C63_encoding",
    "C63_stale_model"
   ],
   "note": ""
  },
  {
   "property": "C64",
   "status": "proved",
   "theorems": [
    "C64_eigenvectors",
    "C64_spectrum",
    "C64_constant",
    "C64_constant_spectrum"
   ],
   "note": ""
  },
  {
   "property": "C65",
   "status": "proved",
   "theorems": [
    "C65_symmetric",
    "C65_spectrum",
    "C65_threshold_refuted"
   ],
   "note": ""
  },
  {
   "property": "C66",
   "status": "proved",
   "theorems": [
    "C66_sums",
    "C66_nonnegative",
    "C66_bounded",
    "C66_symmetric",
    "C66_selection",
    "C66_uniform",
    "C66_stripes_along_y",
    "C66_stripes_along_x",
    "C66_supercell_x",
    "C66_supercell_y"
   ],
   "note": ""
  },
  {
   "property": "C67",
   "status": "proved",
   "theorems": [
    "C67_which_layers",
    "C67_moves",
    "C67_decay",
    "C67_incident",
    "C67_solution",
    "C67_fields_raise",
    "C67_return_eps"
   ],
   "note": ""
  },
  {
   "property": "C68",
   "status": "proved",
   "theorems": [
    "C68_padding_default",
    "C68_padding_band",
    "C68_resolution_refuted",
    "C68_padding_raises",
    "C68_no_bins",
    "C68_frequencies",
    "C68_band_raises",
    "C68_real_part_refuted",
    "C68_transform_raises"
   ],
   "note": ""
  },
  {
   "property": "C69",
   "status": "proved",
   "theorems": [
    "C69_spectrum",
    "C69_spectrum_lengths",
    "C69_spectrum_no_targets",
    "C69_spectra",
    "C69_model_grid",
    "C69_model_grid_absolute_refuted",
    "C69_epsilon_grid",
    "C69_per_frequency_iff",
    "C69_per_frequency",
    "C69_material_grid",
    "C69_points",
    "C69_points_one_frequency_raises",
    "C69_all_plots"
   ],
   "note": ""
  },
  {
   "property": "C70",
   "status": "proved",
   "theorems": [
    "C70_ends",
    "C70_stops",
    "C70_saved",
    "C70_plots",
    "C70_complete",
    "C70_elsewhere",
    "C70_few_frequencies"
   ],
   "note": ""
  },
  {
   "property": "C71",
   "status": "proved",
   "theorems": [
    "C71_accepted_iff",
    "C71_refused_with",
    "C71_polarizations",
    "C71_polarization_check_refuted",
    "C71_fields_are_signal",
    "C71_whole_plane",
    "C71_silent_placement",
    "C71_negative_start_raises"
   ],
   "note": ""
  },
  {
   "property": "C72",
   "status": "proved",
   "theorems": [
    "C72_stored",
    "C72_samples",
    "C72_refused",
    "C72_no_folder",
    "C72_refused_twin_refuted",
    "C72_folder",
    "C72_place",
    "C72_inside_refuted",
    "C72_same_place",
    "C72_distinct_refuted",
    "C72_survive",
    "C72_video",
    "C72_video_fails"
   ],
   "note": ""
  },
  {
   "property": "C73",
   "status": "proved",
   "theorems": [
    "C73_gaussian_peak",
    "C73_gaussian_width",
    "C73_gaussian_symmetric",
    "C73_gaussian_falls",
    "C73_gaussian_raises",
    "C73_derivative",
    "C73_derivative_peaks",
    "C73_derivative_odd",
    "C73_derivative_raises",
    "C73_point_bound",
    "C73_line_bound",
    "C73_ricker"
   ],
   "note": ""
  },
  {
   "property": "C74",
   "status": "proved",
   "theorems": [
    "C74_placed",
    "C74_not_a_cell",
    "C74_named",
    "C74_named_cell",
    "C74_emits",
    "C74_voltages",
    "C74_inputs",
    "C74_history",
    "C74_quiet",
    "C74_works",
    "C74_late",
    "C74_orphan",
    "C74_unplaced",
    "C74_reset",
    "C74_reset_inputs"
   ],
   "note": ""
  },
  {
   "property": "C75",
   "status": "proved",
   "theorems": [
    "C75_complete",
    "C75_raises",
    "C75_shown_before",
    "C75_lines",
    "C75_default",
    "C75_after_training_refuted"
   ],
   "note": ""
  },
  {
   "property": "C76",
   "status": "proved",
   "theorems": [
    "C76_draws",
    "C76_refused",
    "C76_after_history",
    "C76_image",
    "C76_scale",
    "C76_objects",
    "C76_object_where",
    "C76_planes",
    "C76_lines",
    "C76_markers",
    "C76_detectors",
    "C76_block",
    "C76_pml",
    "C76_periodic",
    "C76_edge_refuted",
    "C76_negative_refuted",
    "C76_zx_refuted"
   ],
   "note": ""
  },
  {
   "property": "C77",
   "status": "proved",
   "theorems": [
    "C77_distinct",
    "C77_distinct_none",
    "C77_name",
    "C77_order",
    "C77_order_refuted",
    "C77_saved",
    "C77_refused",
    "C77_no_folder",
    "C77_film",
    "C77_video"
   ],
   "note": ""
  },
  {
   "property": "C78",
   "status": "proved",
   "theorems": [
    "C78_drawn",
    "C78_refused",
    "C78_map",
    "C78_order",
    "C78_peaks",
    "C78_invariant"
   ],
   "note": ""
  },
  {
   "property": "C79",
   "status": "proved",
   "theorems": [
    "C79_curves",
    "C79_arrivals",
    "C79_drawn_all",
    "C79_drawn_one",
    "C79_no_dictionary",
    "C79_empty",
    "C79_block_refuted",
    "C79_unread_refuted",
    "C79_saved"
   ],
   "note": ""
  },
  {
   "property": "C80",
   "status": "proved",
   "theorems": [
    "C80_solves",
    "C80_unique",
    "C80_snell",
    "C80_returns_inputs",
    "C80_needs",
    "C80_succeeds",
    "C80_interface",
    "C80_slab",
    "C80_doubled_last_refused",
    "C80_doubled_last_refuted"
   ],
   "note": ""
  },
  {
   "property": "C81",
   "status": "proved",
   "theorems": [
    "C81_accounts",
    "C81_powers",
    "C81_passive",
    "C81_lossless"
   ],
   "note": ""
  },
  {
   "property": "C82",
   "status": "proved",
   "theorems": [
    "C82_domain",
    "C82_fields",
    "C82_absorption_is_derivative",
    "C82_absorption_sign",
    "C82_continuous",
    "C82_ends"
   ],
   "note": ""
  },
  {
   "property": "C83",
   "status": "proved",
   "theorems": [
    "C83_reciprocity",
    "C83_same_T",
    "C83_same_R"
   ],
   "note": ""
  },
  {
   "property": "C84",
   "status": "proved",
   "theorems": [
    "C84_scaling",
    "C84_no_thickness",
    "C84_cut_layer",
    "C84_half_waves"
   ],
   "note": ""
  },
  {
   "property": "C85",
   "status": "proved",
   "theorems": [
    "C85_normal_incidence",
    "C85_unpolarized",
    "C85_unpolarized_bounds"
   ],
   "note": ""
  },
  {
   "property": "C86",
   "status": "proved",
   "theorems": [
    "C86_find",
    "C86_find_in_front",
    "C86_infinite_refused",
    "C86_find_with_inf",
    "C86_found",
    "C86_starts",
    "C86_starts_refused",
    "C86_evaluates",
    "C86_power_falls"
   ],
   "note": ""
  },
  {
   "property": "C87",
   "status": "proved",
   "theorems": [
    "C87_agrees",
    "C87_exists",
    "C87_from_the_end",
    "C87_first",
    "C87_integral",
    "C87_flip",
    "C87_flip_ok",
    "C87_flip_twice",
    "C87_scale",
    "C87_add",
    "C87_add_ok"
   ],
   "note": ""
  },
  {
   "property": "C88",
   "status": "proved",
   "theorems": [
    "C88_angles",
    "C88_unique",
    "C88_exists",
    "C88_normal_incidence"
   ],
   "note": ""
  },
  {
   "property": "C89",
   "status": "proved",
   "theorems": [
    "C89_accepts",
    "C89_refuses",
    "C89_incoherent",
    "C89_incoherent_inverse",
    "C89_stacks",
    "C89_stacks_in_order",
    "C89_stack_layers",
    "C89_stack_inverse",
    "C89_around_stack",
    "C89_stack_before"
   ],
   "note": ""
  },
  {
   "property": "C90",
   "status": "proved",
   "theorems": [
    "C90_layers",
    "C90_balance",
    "C90_unique",
    "C90_crossings",
    "C90_succeeds"
   ],
   "note": ""
  },
  {
   "property": "C91",
   "status": "proved",
   "theorems": [
    "C91_accounts",
    "C91_entries",
    "C91_no_gain",
    "C91_conserved",
    "C91_transparent",
    "C91_lossless",
    "C91_absorption",
    "C91_absorbing_refuted"
   ],
   "note": ""
  },
  {
   "property": "C92",
   "status": "proved",
   "theorems": [
    "C92_coherent",
    "C92_slab",
    "C92_thickness",
    "C92_absorption_function_refuted"
   ],
   "note": ""
  },
  {
   "property": "C93",
   "status": "proved",
   "theorems": [
    "C93_films",
    "C93_real",
    "C93_spectrum",
    "C93_total"
   ],
   "note": ""
  },
  {
   "property": "C94",
   "status": "proved",
   "theorems": [
    "C94_collection",
    "C94_names",
    "C94_increasing",
    "C94_rows",
    "C94_row_serves",
    "C94_beyond",
    "C94_default_range",
    "C94_bounds",
    "C94_modulus",
    "C94_not_zeroed",
    "C94_passive",
    "C94_passive_refuted",
    "C94_gain_in_configs",
    "C94_default_limit_refuted",
    "C94_negative_bands",
    "C94_fdtd_raises",
    "C94_dielectric",
    "C94_germanium_lossless"
   ],
   "note": ""
  },
  {
   "property": "C95",
   "status": "proved",
   "theorems": [
    "C95_composition",
    "C95_failures",
    "C95_best",
    "C95_continue",
    "C95_resume",
    "C95_negative_range",
    "C95_unknown_solver",
    "C95_trcwa_logs",
    "C95_grid",
    "C95_loss"
   ],
   "note": ""
  },
  {
   "property": "C96",
   "status": "proved",
   "theorems": [
    "C96_transpose",
    "C96_transpose_twice",
    "C96_backend_default",
    "C96_backend_axes",
    "C96_matrix_matrix",
    "C96_matrix_vector",
    "C96_vector_vector",
    "C96_accepted",
    "C96_type",
    "C96_created",
    "C96_eye_neutral",
    "C96_associative",
    "C96_transposed_product",
    "C96_linspace",
    "C96_linspace_few",
    "C96_line_cells",
    "C96_line_rounding"
   ],
   "note": ""
  },
  {
   "property": "C97",
   "status": "proved",
   "theorems": [
    "C97_shown",
    "C97_refused",
    "C97_import",
    "C97_last_setting"
   ],
   "note": ""
  },
  {
   "property": "C98",
   "status": "proved",
   "theorems": [
    "C98_curves"
   ],
   "note": ""
  },
  {
   "property": "C99",
   "status": "proved",
   "theorems": [
    "C99_exact",
    "C99_adjacent",
    "C99_ordered",
    "C99_layout"
   ],
   "note": ""
  },
  {
   "property": "C100",
   "status": "proved",
   "theorems": [
    "C100_plane_wave",
    "C100_speed",
    "C100_ten_cells"
   ],
   "note": ""
  },
  {
   "property": "C101",
   "status": "proved",
   "theorems": [
    "C101_simulation",
    "C101_time_step",
    "C101_oscillation",
    "C101_settled_is_balanced",
    "C101_power_balance",
    "C101_scattered_exists",
    "C101_scattered_unique",
    "C101_bounds"
   ],
   "note": ""
  },
  {
   "property": "C102",
   "status": "proved",
   "theorems": [
    "C102_interface",
    "C102_indices",
    "C102_power",
    "C102_fresnel",
    "C102_fresnel_ten"
   ],
   "note": ""
  },
  {
   "property": "C103",
   "status": "proved",
   "theorems": [
    "C103_agrees",
    "C103_settled",
    "C103_simulation",
    "C103_phase",
    "C103_index",
    "C103_thickness",
    "C103_wavelength"
   ],
   "note": ""
  },
  {
   "property": "C104",
   "status": "proved",
   "theorems": [
    "C104_power",
    "C104_flat_crest",
    "C104_robust",
    "C104_coefficients",
    "C104_error",
    "C104_exact",
    "C104_column",
    "C104_recorded",
    "C104_kept",
    "C104_difference",
    "C104_transfer_matrix"
   ],
   "note": ""
  },
  {
   "property": "C105",
   "status": "proved",
   "theorems": [
    "C105_same_simulation",
    "C105_same_entry",
    "C105_same_entry_lossless",
    "C105_same_entries",
    "C105_every_wavelength",
    "C105_shift",
    "C105_apart"
   ],
   "note": ""
  },
  {
   "property": "C106",
   "status": "proved",
   "theorems": [
    "C106_run_back",
    "C106_run_back_exists",
    "C106_distinct",
    "C106_forgets",
    "C106_tidy_stays"
   ],
   "note": ""
  },
  {
   "property": "C107",
   "status": "proved",
   "theorems": [
    "C107_simulation",
    "C107_rows_agree",
    "C107_wave_equation",
    "C107_mean_balanced",
    "C107_evens_out",
    "C107_ten_columns",
    "C107_recorded"
   ],
   "note": ""
  },
  {
   "property": "C108",
   "status": "proved",
   "theorems": [
    "C108_unaware",
    "C108_nothing_reflected",
    "C108_still_dark",
    "C108_too_short"
   ],
   "note": ""
  },
  {
   "property": "C109",
   "status": "proved",
   "theorems": [
    "C109_signals",
    "C109_entry",
    "C109_cut",
    "C109_spectrum",
    "C109_resolution",
    "C109_longer"
   ],
   "note": ""
  },
  {
   "property": "C110",
   "status": "proved",
   "theorems": [
    "C110_signals",
    "C110_entry"
   ],
   "note": ""
  },
  {
   "property": "C111",
   "status": "proved",
   "theorems": [
    "C111_polarizations",
    "C111_detectors",
    "C111_dark",
    "C111_dark_pml_refuted"
   ],
   "note": ""
  }
 ]
}