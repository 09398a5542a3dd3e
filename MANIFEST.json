{
 "claims": [
  {
   "property": "C01",
   "status": "proved",
   "theorems": [
    "C01_tables",
    "C01_angular_table",
    "C01_unobservable",
    "C01_unobservable_angular",
    "C01_two_histories",
    "C01_unobservable_binary64",
    "C01_factor_history",
    "C01_angular_table_refuted"
   ],
   "note": ""
  },
  {
   "property": "C02",
   "status": "proved",
   "theorems": [
    "C02_api_is_lookups",
    "C02_lookup",
    "C02_twice"
   ],
   "note": ""
  },
  {
   "property": "C03",
   "status": "proved",
   "theorems": [
    "C03_distinct",
    "C03_distinct_binary64",
    "C03_hit_changes_nothing"
   ],
   "note": ""
  },
  {
   "property": "C04",
   "status": "proved",
   "theorems": [
    "C04_inserted_lives_59",
    "C04_lifetime",
    "C04_calculate_inserts_once"
   ],
   "note": ""
  },
  {
   "property": "C05",
   "status": "proved",
   "theorems": [
    "C05_self_contained",
    "C05_same_numbers",
    "C05_defined",
    "C05_blank_lookup",
    "C05_default_refuted",
    "C05_default_binary64_refuted",
    "C05_copy_aliases",
    "C05_copy_dangles"
   ],
   "note": ""
  },
  {
   "property": "C06",
   "status": "proved",
   "theorems": [
    "C06_key",
    "C06_reflexive",
    "C06_symmetric",
    "C06_energy_thickness",
    "C06_symmetric_binary64",
    "C06_transitive_refuted",
    "C06_nan_refuted"
   ],
   "note": ""
  },
  {
   "property": "C07",
   "status": "proved",
   "theorems": [
    "C07_uninterrupted",
    "C07_serial",
    "C07_hits",
    "C07_one_writer",
    "C07_refuted",
    "C07_lost_entry_refuted",
    "C07_half_built_refuted",
    "C07_overrun_refuted",
    "C07_reference_refuted"
   ],
   "note": ""
  },
  {
   "property": "C08",
   "status": "proved",
   "theorems": [
    "C08_binary64",
    "C08_api_binary64",
    "C08_budget",
    "C08_class",
    "C08_stopped",
    "C08_iterates",
    "C08_api"
   ],
   "note": ""
  },
  {
   "property": "C09",
   "status": "proved",
   "theorems": [
    "C09_binary64",
    "C09_corrected",
    "C09_first_iterate_refuted"
   ],
   "note": ""
  },
  {
   "property": "C10",
   "status": "proved",
   "theorems": [
    "C10_binary64",
    "C10_split",
    "C10_split_unsplit",
    "C10_energy",
    "C10_api"
   ],
   "note": ""
  },
  {
   "property": "C11",
   "status": "proved",
   "theorems": [
    "C11_energy_out",
    "C11_dedx",
    "C11_threshold"
   ],
   "note": ""
  },
  {
   "property": "C12",
   "status": "proved",
   "theorems": [
    "C12_low_energy",
    "C12_no_thickness",
    "C12_balance",
    "C12_agrees",
    "C12_binary64"
   ],
   "note": ""
  },
  {
   "property": "C13",
   "status": "proved",
   "theorems": [
    "C13_default_config",
    "C13_tof",
    "C13_tof_ignores_config",
    "C13_tof_barkas",
    "C13_tof_changes"
   ],
   "note": ""
  },
  {
   "property": "C14",
   "status": "proved",
   "theorems": [
    "C14_in_order",
    "C14_append",
    "C14_join",
    "C14_prefix"
   ],
   "note": ""
  },
  {
   "property": "C15",
   "status": "proved",
   "theorems": [
    "C15_sums",
    "C15_balance",
    "C15_empty",
    "C15_balance_refuted",
    "C15_binary64"
   ],
   "note": ""
  },
  {
   "property": "C16",
   "status": "proved",
   "theorems": [
    "C16_transport",
    "C16_transport_app",
    "C16_split",
    "C16_psd",
    "C16_abs_idle"
   ],
   "note": ""
  },
  {
   "property": "C17",
   "status": "proved",
   "theorems": [
    "C17_product",
    "C17_negative",
    "C17_range",
    "C17_minus_one_not_absorbing",
    "C17_binary64"
   ],
   "note": ""
  },
  {
   "property": "C18",
   "status": "proved",
   "theorems": [
    "C18_grid",
    "C18_library",
    "C18_computed_grid",
    "C18_linear_grid",
    "C18_binary64",
    "C18_binary64_increasing"
   ],
   "note": ""
  },
  {
   "property": "C19",
   "status": "proved",
   "theorems": [
    "C19_lookup",
    "C19_lookup_sharp",
    "C19_library",
    "C19_upper_bound",
    "C19_linear",
    "C19_binary64_refuted",
    "C19_nan_refuted",
    "C19_binary64",
    "C19_same_index",
    "C19_log_array",
    "C19_binary64_knots"
   ],
   "note": ""
  },
  {
   "property": "C20",
   "status": "proved",
   "theorems": [
    "C20_defined",
    "C20_interpolates",
    "C20_continuous",
    "C20_continuity_refuted",
    "C20_binary64"
   ],
   "note": ""
  },
  {
   "property": "C21",
   "status": "proved",
   "theorems": [
    "C21_curvature",
    "C21_jump",
    "C21_smooth_iff",
    "C21_kink_refuted"
   ],
   "note": ""
  },
  {
   "property": "C22",
   "status": "proved",
   "theorems": [
    "C22_solver",
    "C22_no_zero_pivot",
    "C22_spline_rows"
   ],
   "note": ""
  },
  {
   "property": "C23",
   "status": "proved",
   "theorems": [
    "C23_reads_uninitialised",
    "C23_model",
    "C23_leftovers_matter"
   ],
   "note": ""
  },
  {
   "property": "C24",
   "status": "proved",
   "theorems": [
    "C24_linear"
   ],
   "note": ""
  },
  {
   "property": "C25",
   "status": "proved",
   "theorems": [
    "C25_at_grid",
    "C25_between",
    "C25_outside",
    "C25_gap",
    "C25_lindhard_tables",
    "C25_lindhard_limits",
    "C25_binary64_grid",
    "C25_binary64_increasing",
    "C25_binary64_index",
    "C25_binary64",
    "C25_tables_binary64",
    "C25_binary64_refuted",
    "C25_window_no_double"
   ],
   "note": ""
  },
  {
   "property": "C26",
   "status": "proved",
   "theorems": [
    "C26_linear",
    "C26_monotone",
    "C26_positive",
    "C26_swap",
    "C26_inside",
    "C26_affine",
    "C26_exact",
    "C26_library",
    "C26_binary64_nodes",
    "C26_binary64"
   ],
   "note": ""
  },
  {
   "property": "C27",
   "status": "proved",
   "theorems": [
    "C27_partition",
    "C27_applications",
    "C27_terminates",
    "C27_orders",
    "C27_rule",
    "C27_exact",
    "C27_points",
    "C27_points_even",
    "C27_points_odd",
    "C27_defined"
   ],
   "note": ""
  },
  {
   "property": "C28",
   "status": "proved",
   "theorems": [
    "C28_api",
    "C28_binary64",
    "C28_differences",
    "C28_increasing",
    "C28_whole_table",
    "C28_low",
    "C28_variances"
   ],
   "note": ""
  },
  {
   "property": "C29",
   "status": "proved",
   "theorems": [
    "C29_numbers_of_atoms",
    "C29_weight_fractions",
    "C29_stepwise",
    "C29_stepwise_weights_refuted",
    "C29_mixed_refuted"
   ],
   "note": ""
  },
  {
   "property": "C30",
   "status": "proved",
   "theorems": [
    "C30_thickness_cm",
    "C30_thickness",
    "C30_number_density_i",
    "C30_number_density"
   ],
   "note": ""
  },
  {
   "property": "C31",
   "status": "proved",
   "theorems": [
    "C31_plus",
    "C31_thickness",
    "C31_add_layers",
    "C31_add_self",
    "C31_model"
   ],
   "note": ""
  },
  {
   "property": "C32",
   "status": "proved",
   "theorems": [
    "C32_elements",
    "C32_other",
    "C32_physical",
    "C32_fractions",
    "C32_photoemulsion_refuted",
    "C32_formula",
    "C32_Na2CO3_refuted",
    "C32_textbook",
    "C32_polyolefin_refuted"
   ],
   "note": ""
  },
  {
   "property": "C33",
   "status": "proved",
   "theorems": [
    "C33_isotopes",
    "C33_negative_index_refuted",
    "C33_defined_iff"
   ],
   "note": ""
  },
  {
   "property": "C34",
   "status": "proved",
   "theorems": [
    "C34_atomic_weight",
    "C34_density",
    "C34_ionisation_potential"
   ],
   "note": ""
  },
  {
   "property": "C35",
   "status": "proved",
   "theorems": [
    "C35_roundtrip",
    "C35_not_found",
    "C35_search",
    "C35_match"
   ],
   "note": ""
  },
  {
   "property": "C36",
   "status": "proved",
   "theorems": [
    "C36_gamma",
    "C36_beta",
    "C36_momentum",
    "C36_two_definitions",
    "C36_two_definitions_binary64_refuted",
    "C36_gamma_binary64",
    "C36_beta_binary64",
    "C36_beta_binary64_digits",
    "C36_beta_binary64_refuted",
    "C36_momentum_binary64"
   ],
   "note": ""
  },
  {
   "property": "C37",
   "status": "proved",
   "theorems": [
    "C37_zero",
    "C37_low",
    "C37_high",
    "C37_between",
    "C37_model",
    "C37_continuous"
   ],
   "note": ""
  },
  {
   "property": "C38",
   "status": "proved",
   "theorems": [
    "C38_in_bounds",
    "C38_tables",
    "C38_charge_109_refuted",
    "C38_charge_0_refuted",
    "C38_target_0_refuted",
    "C38_table_end_refuted",
    "C38_uncharged_refuted",
    "C38_binary64",
    "C38_tables_binary64",
    "C38_binary64_refuted",
    "C38_doubles"
   ],
   "note": ""
  },
  {
   "property": "C39",
   "status": "proved",
   "theorems": [
    "C39_stopping",
    "C39_straggling",
    "C39_reordered_list",
    "C39_order",
    "C39_order_tables",
    "C39_split",
    "C39_split_list",
    "C39_split_mixed",
    "C39_split_mixed_refuted"
   ],
   "note": ""
  },
  {
   "property": "C40",
   "status": "proved",
   "theorems": [
    "C40_winger_positive",
    "C40_winger_negative_refuted",
    "C40_winger_increasing_refuted",
    "C40_none",
    "C40_pierce_blann",
    "C40_anthony",
    "C40_anthony_sign_refuted",
    "C40_hubert",
    "C40_winger",
    "C40_global",
    "C40_global_refuted",
    "C40_global_heavy_refuted",
    "C40_atima14",
    "C40_schiwietz",
    "C40_schiwietz_bound_refuted"
   ],
   "note": ""
  },
  {
   "property": "C41",
   "status": "proved",
   "theorems": [
    "C41_barkas",
    "C41_barkas_slow",
    "C41_pair_production",
    "C41_bremsstrahlung",
    "C41_density_value",
    "C41_density_low",
    "C41_density_high",
    "C41_density_sign_refuted"
   ],
   "note": ""
  },
  {
   "property": "C42",
   "status": "proved",
   "theorems": [
    "C42_proton",
    "C42_seam",
    "C42_any_ion",
    "C42_dedx"
   ],
   "note": ""
  },
  {
   "property": "C43",
   "status": "proved",
   "theorems": [
    "C43_positive"
   ],
   "note": ""
  },
  {
   "property": "C44",
   "status": "proved",
   "theorems": [
    "C44_binary64",
    "C44_rates",
    "C44_rate_of_function",
    "C44_kox_nonneg",
    "C44_kox_continuous",
    "C44_kox_model",
    "C44_survival",
    "C44_nonreaction_rate"
   ],
   "note": ""
  },
  {
   "property": "C45",
   "status": "proved",
   "theorems": [
    "C45_binary64",
    "C45_binary64_thin",
    "C45_binary64_refuted",
    "C45_bounds",
    "C45_thin_error",
    "C45_balance"
   ],
   "note": ""
  },
  {
   "property": "C46",
   "status": "proved",
   "theorems": [
    "C46_table_whole",
    "C46_tabulated",
    "C46_harmonic",
    "C46_element",
    "C46_coulomb_sign_refuted",
    "C46_material",
    "C46_scattering_power",
    "C46_table"
   ],
   "note": ""
  },
  {
   "property": "C47",
   "status": "proved",
   "theorems": [
    "C47_moments",
    "C47_api",
    "C47_factor",
    "C47_highland_refuted",
    "C47_gottschalk_refuted"
   ],
   "note": ""
  },
  {
   "property": "C48",
   "status": "proved",
   "theorems": [
    "C48_element",
    "C48_compound",
    "C48_seven",
    "C48_call",
    "C48_history_free",
    "C48_range_ignores_energy",
    "C48_range_refuted",
    "C48_selection_ignored",
    "C48_selection_refuted"
   ],
   "note": ""
  },
  {
   "property": "C49",
   "status": "proved",
   "theorems": [
    "C49_grid",
    "C49_no_grid",
    "C49_grid_ends",
    "C49_energies",
    "C49_step",
    "C49_step_refuted",
    "C49_two_points",
    "C49_config",
    "C49_compound",
    "C49_element",
    "C49_run",
    "C49_binary64"
   ],
   "note": ""
  },
  {
   "property": "C50",
   "status": "proved",
   "theorems": [
    "C50_factor",
    "C50_factor_high",
    "C50_variance",
    "C50_material",
    "C50_table",
    "C50_negative_refuted"
   ],
   "note": ""
  },
  {
   "property": "C51",
   "status": "proved",
   "theorems": [
    "C51_nothing",
    "C51_slope",
    "C51_identity",
    "C51_proportional",
    "C51_derivative"
   ],
   "note": ""
  },
  {
   "property": "C52",
   "status": "proved",
   "theorems": [
    "C52_charge",
    "C52_bethe",
    "C52_positive",
    "C52_ranges",
    "C52_range_api",
    "C52_straggling",
    "C52_time_of_flight",
    "C52_charge_known",
    "C52_bethe_known",
    "C52_positive_known",
    "C52_ranges_known",
    "C52_range_api_known",
    "C52_straggling_known",
    "C52_time_of_flight_known"
   ],
   "note": ""
  },
  {
   "property": "C53",
   "status": "proved",
   "theorems": [
    "C53_tof",
    "C53_window_refuted",
    "C53_calculate",
    "C53_layers",
    "C53_call",
    "C53_history",
    "C53_no_calculate",
    "C53_binary64",
    "C53_energy_out_binary64",
    "C53_no_layer_binary64"
   ],
   "note": ""
  },
  {
   "property": "C54",
   "status": "proved",
   "theorems": [
    "C54_sum",
    "C54_ultrarelativistic",
    "C54_X",
    "C54_loop"
   ],
   "note": ""
  },
  {
   "property": "C55",
   "status": "proved",
   "theorems": [
    "C55_hyperg",
    "C55_hyperg_terminates",
    "C55_hyperg_error",
    "C55_hyperg_refuted",
    "C55_lngamma_real",
    "C55_reflection",
    "C55_axis",
    "C55_axis_refuted",
    "C55_complex",
    "C55_lngamma"
   ],
   "note": ""
  },
  {
   "property": "C56",
   "status": "proved",
   "theorems": [
    "C56_interior",
    "C56_interior_converges",
    "C56_interior_terminates",
    "C56_phase",
    "C56_lindhard",
    "C56_phase_value"
   ],
   "note": ""
  },
  {
   "property": "C57",
   "status": "proved",
   "theorems": [
    "C57_entries",
    "C57_between",
    "C57_beyond"
   ],
   "note": ""
  },
  {
   "property": "C58",
   "status": "proved",
   "theorems": [
    "C58_blocks",
    "C58_written",
    "C58_beam",
    "C58_separator",
    "C58_values",
    "C58_database",
    "C58_mixture_refuted",
    "C58_thin"
   ],
   "note": ""
  },
  {
   "property": "C59",
   "status": "proved",
   "theorems": [
    "C59_constants",
    "C59_nuclear",
    "C59_barkas",
    "C59_bethe",
    "C59_pair_production",
    "C59_bremsstrahlung",
    "C59_variance",
    "C59_scattering",
    "C59_scattering_element",
    "C59_reduced_energy",
    "C59_pierce_blann",
    "C59_anthony",
    "C59_hubert",
    "C59_winger",
    "C59_schiwietz",
    "C59_scattering_length",
    "C59_gottschalk",
    "C59_moments",
    "C59_gottschalk_moments",
    "C59_proton",
    "C59_helium",
    "C59_heavy_ion",
    "C59_kox_barrier_refuted",
    "C59_low_energy",
    "C59_correction_bits"
   ],
   "note": ""
  },
  {
   "property": "C60",
   "status": "proved",
   "theorems": [
    "C60_nuclear",
    "C60_barkas",
    "C60_highenergy",
    "C60_highenergy_discontinuous",
    "C60_hubert",
    "C60_heavy_ion"
   ],
   "note": ""
  },
  {
   "property": "C61",
   "status": "proved",
   "theorems": [
    "C61_energy_straggling",
    "C61_angle",
    "C61_moments",
    "C61_between",
    "C61_angle_between",
    "C61_time_of_flight",
    "C61_tof_table",
    "C61_stack"
   ],
   "note": ""
  },
  {
   "property": "C62",
   "status": "proved",
   "theorems": [
    "C62_exit",
    "C62_report",
    "C62_alike",
    "C62_missing",
    "C62_config",
    "C62_blocks",
    "C62_projectile_refuted",
    "C62_charge_refuted",
    "C62_warning_refuted",
    "C62_step_refuted",
    "C62_sample_files",
    "C62_sample_config",
    "C62_sample_blocks"
   ],
   "note": ""
  },
  {
   "property": "C63",
   "status": "proved",
   "theorems": [
    "C63_arrays",
    "C63_closed",
    "C63_written",
    "C63_rows_refuted",
    "C63_grid",
    "C63_binary64_grid",
    "C63_digits"
   ],
   "note": ""
  },
  {
   "property": "C64",
   "status": "proved",
   "theorems": [
    "C64_libm",
    "C64_libm_accurate",
    "C64_nuclear",
    "C64_srim",
    "C64_low_energy",
    "C64_straggling_nonnegative",
    "C64_ultrarelativistic",
    "C64_compound",
    "C64_lengths",
    "C64_z_eff",
    "C64_constants",
    "C64_survival_trivial",
    "C64_production",
    "C64_energy_table",
    "C64_constant_results",
    "C64_single_fields",
    "C64_vector_inputs",
    "C64_first_layer",
    "C64_stopped",
    "C64_simplified",
    "C64_datapoints",
    "C64_storage_add",
    "C64_storage_maximum",
    "C64_indexing",
    "C64_material_basic",
    "C64_automatic_weight",
    "C64_default_materials",
    "C64_layers",
    "C64_projectile",
    "C64_config",
    "C64_constructors",
    "C64_fractions",
    "C64_number_density",
    "C64_abundances"
   ],
   "note": ""
  },
  {
   "property": "C65",
   "status": "proved",
   "theorems": [
    "C65_derivative",
    "C65_increasing",
    "C65_increasing_far",
    "C65_derivative_below",
    "C65_increasing_below",
    "C65_increasing_refuted",
    "C65_slow_density",
    "C65_slow_density_below",
    "C65_slow_stopping",
    "C65_range",
    "C65_dedx_from_range",
    "C65_energy_out",
    "C65_sigma_E",
    "C65_thin_layer",
    "C65_thin_energy_out",
    "C65_range_left",
    "C65_thicker_layer",
    "C65_proton_slow",
    "C65_proton_range",
    "C65_proton_dedx",
    "C65_proton_thin",
    "C65_proton_accuracy",
    "C65_proton_split",
    "C65_proton_calculate",
    "C65_proton_layers",
    "C65_steep",
    "C65_accuracy",
    "C65_split",
    "C65_proton_straggling",
    "C65_proton_sigma_E"
   ],
   "note": ""
  },
  {
   "property": "C66",
   "status": "proved",
   "theorems": [
    "C66_default",
    "C66_store_splines",
    "C66_no_reactions",
    "C66_no_reactions_layers",
    "C66_no_reactions_state",
    "C66_thin",
    "C66_thin_layers",
    "C66_thin_state",
    "C66_thin_defined",
    "C66_thin_layers_defined",
    "C66_untouched_refuted",
    "C66_index_default",
    "C66_upper_bound",
    "C66_search_safe",
    "C66_search_spline_safe",
    "C66_search_counts",
    "C66_search_lookup",
    "C66_search_continuous",
    "C66_search_agree",
    "C66_search_window_refuted",
    "C66_search_interpolates",
    "C66_search_ends",
    "C66_search_gap",
    "C66_search_interpolate_refuted",
    "C66_search_binary64",
    "C66_vetable_tables",
    "C66_vetable_spline",
    "C66_vetable_range",
    "C66_vetable_total"
   ],
   "note": ""
  },
  {
   "property": "C67",
   "status": "proved",
   "theorems": [
    "C67_light",
    "C67_heavy",
    "C67_same",
    "C67_global",
    "C67_default",
    "C67_bound",
    "C67_light_bound",
    "C67_excess",
    "C67_bound_refuted",
    "C67_bare_increases",
    "C67_light_continuous",
    "C67_heavy_continuous",
    "C67_stopping_same",
    "C67_tables_same",
    "C67_slow_same",
    "C67_charge_positive",
    "C67_as_given",
    "C67_positive",
    "C67_defined",
    "C67_ranges",
    "C67_variance",
    "C67_straggling"
   ],
   "note": ""
  },
  {
   "property": "C68",
   "status": "proved",
   "theorems": [
    "C68_same",
    "C68_between",
    "C68_constant",
    "C68_slow",
    "C68_rate"
   ],
   "note": ""
  },
  {
   "property": "C69",
   "status": "proved",
   "theorems": [
    "C69_derivative",
    "C69_table",
    "C69_dedx_from_range",
    "C69_calculate",
    "C69_thin_layer",
    "C69_proton",
    "C69_proton_thin"
   ],
   "note": ""
  },
  {
   "property": "C70",
   "status": "proved",
   "theorems": [
    "C70_add_indeterminate",
    "C70_never_stores",
    "C70_stored_dangles",
    "C70_no_range",
    "C70_end",
    "C70_add_zeroed",
    "C70_temporary",
    "C70_short",
    "C70_clamped",
    "C70_range",
    "C70_beyond"
   ],
   "note": ""
  }
 ]
}