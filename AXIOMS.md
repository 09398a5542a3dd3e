# Axioms used by each property theorem

Generated by `tools/gen_axioms.py` from the output of `Print Assumptions`.

## Closed under the global context

C48_range_ignores_energy, C48_selection_ignored, C49_grid_ends, C49_config, C51_nothing, C02_api_is_lookups, C02_lookup, C03_hit_changes_nothing, C04_inserted_lives_59, C04_lifetime, C06_energy_thickness, C07_uninterrupted, C07_serial, C07_hits, C07_one_writer, C32_other, C33_negative_index_refuted, C33_defined_iff, C35_search, C08_budget, C11_energy_out, C11_dedx, C67_same, C67_default, C19_same_index, C68_same, C62_exit, C62_report, C62_alike, C62_missing, C62_config, C66_index_default, C66_upper_bound, C66_search_safe, C66_search_spline_safe, C23_reads_uninitialised, C23_model, C66_vetable_tables, C66_vetable_spline, C66_vetable_range, C58_blocks, C58_written, C58_beam, C58_separator, C63_arrays, C63_closed, C63_written, C63_rows_refuted, C67_stopping_same, C67_slow_same, C70_add_indeterminate, C70_never_stores, C70_stored_dangles, C70_no_range, C70_end, C70_add_zeroed, C70_temporary, C70_short, C31_plus, C31_add_layers, C31_add_self, C31_model, C59_correction_bits, C64_constant_results, C64_single_fields, C64_vector_inputs, C64_first_layer, C66_default, C66_store_splines, C66_no_reactions, C66_no_reactions_layers, C66_no_reactions_state, C66_thin, C66_thin_layers, C66_thin_state, C63_digits, C05_self_contained, C05_same_numbers, C05_copy_aliases, C05_copy_dangles, C12_agrees, C13_default_config, C14_in_order, C14_append, C14_join, C14_prefix.

## `FunctionalExtensionality.functional_extensionality_dep`

C67_tables_same.

## `primitive floats and ints`

C06_nan_refuted, C36_two_definitions_binary64_refuted, C64_nuclear, C64_srim, C64_low_energy, C64_straggling_nonnegative, C64_ultrarelativistic, C64_compound, C64_lengths, C64_z_eff, C64_constants, C64_survival_trivial, C64_production, C64_energy_table, C64_material_basic, C64_automatic_weight, C64_default_materials, C64_layers, C64_projectile, C64_config, C64_constructors, C64_fractions, C64_number_density, C64_abundances, C62_step_refuted, C62_sample_files, C62_sample_config, C62_sample_blocks, C64_stopped, C64_simplified, C19_binary64_refuted, C05_default_binary64_refuted, C64_datapoints.

## `ClassicalDedekindReals.sig_forall_dec`, `FunctionalExtensionality.functional_extensionality_dep`

C06_reflexive, C06_symmetric, C33_isotopes, C58_thin, C37_continuous, C16_transport_app, C16_psd.

## `ClassicalDedekindReals.sig_forall_dec`, `ClassicalDedekindReals.sig_not_dec`, `FunctionalExtensionality.functional_extensionality_dep`

C56_interior_converges, C45_balance.

## `primitive floats and ints`, `FloatAxioms.SF2Prim_Prim2SF`, `FloatAxioms.eqb_spec`

C01_unobservable_binary64.

## `ClassicalDedekindReals.sig_forall_dec`, `ClassicalDedekindReals.sig_not_dec`, `Classical_Prop.classic`, `FunctionalExtensionality.functional_extensionality_dep`

C48_element, C48_compound, C48_seven, C48_call, C48_history_free, C28_api, C48_range_refuted, C48_selection_refuted, C49_grid, C49_no_grid, C49_energies, C49_step, C49_step_refuted, C49_two_points, C49_compound, C49_element, C49_run, C51_slope, C51_identity, C51_proportional, C51_derivative, C01_tables, C01_angular_table, C01_unobservable, C01_unobservable_angular, C01_two_histories, C02_twice, C03_distinct, C04_calculate_inserts_once, C06_key, C06_transitive_refuted, C07_refuted, C07_lost_entry_refuted, C07_half_built_refuted, C07_overrun_refuted, C07_reference_refuted, C32_elements, C32_physical, C32_fractions, C32_photoemulsion_refuted, C32_formula, C32_Na2CO3_refuted, C32_textbook, C32_polyolefin_refuted, C34_atomic_weight, C34_density, C34_ionisation_potential, C35_roundtrip, C35_not_found, C35_match, C08_class, C08_stopped, C08_iterates, C08_api, C09_corrected, C09_first_iterate_refuted, C10_split, C10_split_unsplit, C10_energy, C10_api, C11_threshold, C59_proton, C59_helium, C59_heavy_ion, C67_light, C67_heavy, C67_global, C67_bound, C67_light_bound, C67_excess, C67_bound_refuted, C67_bare_increases, C67_light_continuous, C67_heavy_continuous, C55_hyperg, C55_hyperg_terminates, C55_hyperg_error, C55_hyperg_refuted, C55_lngamma_real, C55_reflection, C55_axis, C55_axis_refuted, C36_gamma, C36_beta, C36_momentum, C36_two_definitions, C27_partition, C27_applications, C27_terminates, C27_orders, C27_rule, C27_exact, C27_points, C27_points_even, C27_points_odd, C27_defined, C19_log_array, C65_derivative_below, C65_increasing_below, C65_derivative, C65_increasing, C65_increasing_far, C65_increasing_refuted, C65_proton_slow, C65_proton_range, C65_proton_dedx, C65_proton_calculate, C65_proton_layers, C68_between, C68_constant, C68_slow, C68_rate, C46_element, C46_coulomb_sign_refuted, C46_material, C46_scattering_power, C46_table, C61_energy_straggling, C61_angle, C61_moments, C61_between, C61_angle_between, C61_time_of_flight, C61_tof_table, C61_stack, C66_search_counts, C66_search_lookup, C66_search_continuous, C66_search_agree, C66_search_window_refuted, C66_search_interpolates, C66_search_interpolate_refuted, C66_search_ends, C66_search_gap, C22_solver, C22_no_zero_pivot, C22_spline_rows, C20_defined, C20_interpolates, C20_continuous, C21_curvature, C21_jump, C21_smooth_iff, C21_kink_refuted, C20_continuity_refuted, C23_leftovers_matter, C24_linear, C50_factor, C50_factor_high, C50_variance, C50_material, C50_table, C50_negative_refuted, C66_vetable_total, C66_vetable_case, C40_none, C40_pierce_blann, C40_anthony, C40_anthony_sign_refuted, C40_hubert, C40_winger, C40_global, C40_global_refuted, C40_global_heavy_refuted, C40_atima14, C40_schiwietz, C40_schiwietz_bound_refuted, C52_charge, C52_bethe, C52_positive, C52_ranges, C52_range_api, C52_straggling, C52_time_of_flight, C58_values, C58_database, C58_mixture_refuted, C37_zero, C37_low, C37_high, C37_between, C37_model, C38_in_bounds, C38_tables, C38_charge_109_refuted, C38_charge_0_refuted, C38_target_0_refuted, C38_table_end_refuted, C01_factor_history, C46_table_whole, C01_angular_table_refuted, C67_charge_positive, C67_as_given, C67_positive, C67_defined, C67_ranges, C67_variance, C67_straggling, C70_clamped, C70_range, C70_beyond, C70_beyond_case, C70_carbon_case, C70_range_case, C60_nuclear, C60_barkas, C60_highenergy, C60_highenergy_discontinuous, C60_hubert, C57_entries, C57_between, C57_beyond, C54_sum, C54_ultrarelativistic, C54_X, C54_loop, C29_numbers_of_atoms, C29_weight_fractions, C29_stepwise, C29_stepwise_weights_refuted, C29_mixed_refuted, C30_thickness_cm, C30_thickness, C30_number_density_i, C30_number_density, C31_thickness, C65_slow_density, C65_slow_density_below, C65_slow_stopping, C65_range, C65_dedx_from_range, C65_energy_out, C65_sigma_E, C65_proton_thin, C65_steep, C65_accuracy, C65_split, C59_low_energy, C62_blocks, C38_uncharged_refuted, C62_projectile_refuted, C62_charge_refuted, C62_warning_refuted, C25_window_no_double, C38_doubles, C66_untouched_refuted, C66_thin_defined, C66_thin_layers_defined, C66_case, C69_derivative, C69_table, C69_dedx_from_range, C69_calculate, C69_thin_layer, C69_proton, C69_proton_thin, C41_barkas, C41_barkas_slow, C41_pair_production, C41_bremsstrahlung, C41_density_value, C41_density_low, C41_density_high, C41_density_sign_refuted, C59_constants, C59_nuclear, C59_barkas, C59_bethe, C59_pair_production, C59_bremsstrahlung, C59_variance, C59_scattering, C59_scattering_element, C59_reduced_energy, C46_tabulated, C46_harmonic, C59_pierce_blann, C59_anthony, C59_hubert, C59_winger, C59_schiwietz, C59_scattering_length, C59_gottschalk, C59_moments, C59_gottschalk_moments, C63_grid, C18_grid, C18_library, C18_computed_grid, C18_linear_grid, C19_lookup, C19_lookup_sharp, C19_library, C19_upper_bound, C19_linear, C25_at_grid, C25_between, C25_outside, C25_gap, C25_lindhard_tables, C25_lindhard_limits, C05_defined, C05_blank_lookup, C05_default_refuted, C60_heavy_ion, C59_kox_barrier_refuted, C12_low_energy, C12_no_thickness, C12_balance, C13_tof, C13_tof_ignores_config, C15_sums, C15_balance, C15_empty, C15_balance_refuted, C16_transport, C16_split, C16_abs_idle, C17_product, C17_negative, C17_range, C39_stopping, C39_straggling, C39_reordered_list, C39_order, C39_order_tables, C39_split, C39_split_list, C39_split_mixed, C39_split_mixed_refuted, C65_thin_layer, C65_thin_energy_out, C65_range_left, C65_thicker_layer, C65_proton_accuracy, C65_proton_split, C65_proton_straggling, C65_proton_sigma_E, C56_interior, C56_interior_terminates, C56_phase, C56_lindhard, C26_linear, C26_monotone, C26_positive, C26_swap, C26_inside, C26_affine, C26_exact, C26_library, C44_rates, C44_rate_of_function, C44_kox_nonneg, C44_kox_continuous, C44_kox_model, C44_survival, C44_nonreaction_rate, C45_bounds, C45_thin_error, C53_tof, C53_window_refuted, C53_calculate, C53_layers, C53_call, C53_history, C53_no_calculate, C47_moments, C47_api, C47_factor, C47_highland_refuted, C47_gottschalk_refuted, C55_complex, C55_lngamma, C56_phase_value, C42_proton, C42_seam, C42_any_ion, C43_positive, C42_dedx, C28_differences, C28_increasing, C28_whole_table, C28_low, C28_variances, C13_tof_barkas, C13_tof_changes, C40_winger_positive, C40_winger_negative_refuted, C40_winger_increasing_refuted, C52_charge_known, C52_bethe_known, C52_positive_known, C52_ranges_known, C52_range_api_known, C52_straggling_known, C52_time_of_flight_known.

## `primitive floats and ints`, `FloatAxioms.SF2Prim_Prim2SF`, `FloatAxioms.abs_spec`, `FloatAxioms.eqb_spec`, `FloatAxioms.sub_spec`

C03_distinct_binary64, C06_symmetric_binary64.

## `primitive floats and ints`, `FloatAxioms.div_spec`, `FloatAxioms.eqb_spec`, `FloatAxioms.leb_spec`, `FloatAxioms.ltb_spec`

C19_nan_refuted.

## `primitive floats and ints`, `ClassicalDedekindReals.sig_forall_dec`, `ClassicalDedekindReals.sig_not_dec`, `Classical_Prop.classic`, `FloatAxioms.Prim2SF_SF2Prim`, `FloatAxioms.Prim2SF_valid`, `FloatAxioms.SF2Prim_Prim2SF`, `FunctionalExtensionality.functional_extensionality_dep`

C64_libm_accurate, C36_beta_binary64_refuted, C45_binary64_refuted.

## `primitive floats and ints`, `ClassicalDedekindReals.sig_forall_dec`, `ClassicalDedekindReals.sig_not_dec`, `Classical_Prop.classic`, `FloatAxioms.Prim2SF_SF2Prim`, `FloatAxioms.Prim2SF_valid`, `FloatAxioms.SF2Prim_Prim2SF`, `FloatAxioms.ltb_spec`, `FunctionalExtensionality.functional_extensionality_dep`

C09_binary64.

## `primitive floats and ints`, `ClassicalDedekindReals.sig_forall_dec`, `ClassicalDedekindReals.sig_not_dec`, `Classical_Prop.classic`, `FloatAxioms.Prim2SF_SF2Prim`, `FloatAxioms.Prim2SF_valid`, `FloatAxioms.SF2Prim_Prim2SF`, `FloatAxioms.abs_spec`, `FloatAxioms.ltb_spec`, `FunctionalExtensionality.functional_extensionality_dep`

C64_libm.

## `primitive floats and ints`, `ClassicalDedekindReals.sig_forall_dec`, `ClassicalDedekindReals.sig_not_dec`, `Classical_Prop.classic`, `FloatAxioms.Prim2SF_SF2Prim`, `FloatAxioms.Prim2SF_valid`, `FloatAxioms.SF2Prim_Prim2SF`, `FloatAxioms.add_spec`, `FloatAxioms.div_spec`, `FunctionalExtensionality.functional_extensionality_dep`

C36_gamma_binary64.

## `primitive floats and ints`, `ClassicalDedekindReals.sig_forall_dec`, `ClassicalDedekindReals.sig_not_dec`, `Classical_Prop.classic`, `FloatAxioms.Prim2SF_SF2Prim`, `FloatAxioms.Prim2SF_valid`, `FloatAxioms.SF2Prim_Prim2SF`, `FloatAxioms.add_spec`, `FloatAxioms.mul_spec`, `FunctionalExtensionality.functional_extensionality_dep`

C18_binary64, C18_binary64_increasing, C25_binary64_grid, C25_binary64_increasing.

## `primitive floats and ints`, `ClassicalDedekindReals.sig_forall_dec`, `ClassicalDedekindReals.sig_not_dec`, `Classical_Prop.classic`, `FloatAxioms.Prim2SF_SF2Prim`, `FloatAxioms.Prim2SF_valid`, `FloatAxioms.SF2Prim_Prim2SF`, `FloatAxioms.eqb_spec`, `FloatAxioms.ltb_spec`, `FunctionalExtensionality.functional_extensionality_dep`

C38_binary64_refuted, C25_binary64_refuted.

## `primitive floats and ints`, `ClassicalDedekindReals.sig_forall_dec`, `ClassicalDedekindReals.sig_not_dec`, `Classical_Prop.classic`, `FloatAxioms.Prim2SF_SF2Prim`, `FloatAxioms.Prim2SF_valid`, `FloatAxioms.SF2Prim_Prim2SF`, `FloatAxioms.leb_spec`, `FloatAxioms.mul_spec`, `FunctionalExtensionality.functional_extensionality_dep`

C17_binary64.

## `primitive floats and ints`, `ClassicalDedekindReals.sig_forall_dec`, `ClassicalDedekindReals.sig_not_dec`, `Classical_Prop.classic`, `FloatAxioms.Prim2SF_SF2Prim`, `FloatAxioms.Prim2SF_valid`, `FloatAxioms.SF2Prim_Prim2SF`, `FloatAxioms.add_spec`, `FloatAxioms.div_spec`, `FloatAxioms.mul_spec`, `FunctionalExtensionality.functional_extensionality_dep`

C63_binary64_grid.

## `primitive floats and ints`, `ClassicalDedekindReals.sig_forall_dec`, `ClassicalDedekindReals.sig_not_dec`, `Classical_Prop.classic`, `FloatAxioms.Prim2SF_SF2Prim`, `FloatAxioms.Prim2SF_valid`, `FloatAxioms.SF2Prim_Prim2SF`, `FloatAxioms.add_spec`, `FloatAxioms.mul_spec`, `FloatAxioms.sqrt_spec`, `FunctionalExtensionality.functional_extensionality_dep`

C36_momentum_binary64.

## `primitive floats and ints`, `ClassicalDedekindReals.sig_forall_dec`, `ClassicalDedekindReals.sig_not_dec`, `Classical_Prop.classic`, `FloatAxioms.Prim2SF_SF2Prim`, `FloatAxioms.Prim2SF_valid`, `FloatAxioms.SF2Prim_Prim2SF`, `FloatAxioms.mul_spec`, `FloatAxioms.opp_spec`, `FloatAxioms.sub_spec`, `FunctionalExtensionality.functional_extensionality_dep`

C44_binary64.

## `primitive floats and ints`, `ClassicalDedekindReals.sig_forall_dec`, `ClassicalDedekindReals.sig_not_dec`, `Classical_Prop.classic`, `FloatAxioms.Prim2SF_SF2Prim`, `FloatAxioms.Prim2SF_valid`, `FloatAxioms.SF2Prim_Prim2SF`, `FloatAxioms.abs_spec`, `FloatAxioms.leb_spec`, `FloatAxioms.ltb_spec`, `FloatAxioms.sub_spec`, `FunctionalExtensionality.functional_extensionality_dep`

C08_binary64, C08_api_binary64, C10_binary64.

## `primitive floats and ints`, `ClassicalDedekindReals.sig_forall_dec`, `ClassicalDedekindReals.sig_not_dec`, `Classical_Prop.classic`, `FloatAxioms.Prim2SF_SF2Prim`, `FloatAxioms.Prim2SF_valid`, `FloatAxioms.SF2Prim_Prim2SF`, `FloatAxioms.abs_spec`, `FloatAxioms.ltb_spec`, `FloatAxioms.mul_spec`, `FloatAxioms.sub_spec`, `FunctionalExtensionality.functional_extensionality_dep`

C45_binary64_thin.

## `primitive floats and ints`, `ClassicalDedekindReals.sig_forall_dec`, `ClassicalDedekindReals.sig_not_dec`, `Classical_Prop.classic`, `FloatAxioms.Prim2SF_SF2Prim`, `FloatAxioms.Prim2SF_valid`, `FloatAxioms.SF2Prim_Prim2SF`, `FloatAxioms.add_spec`, `FloatAxioms.ltb_spec`, `FloatAxioms.mul_spec`, `FloatAxioms.sub_spec`, `FunctionalExtensionality.functional_extensionality_dep`

C15_binary64.

## `primitive floats and ints`, `ClassicalDedekindReals.sig_forall_dec`, `ClassicalDedekindReals.sig_not_dec`, `Classical_Prop.classic`, `FloatAxioms.Prim2SF_SF2Prim`, `FloatAxioms.Prim2SF_valid`, `FloatAxioms.SF2Prim_Prim2SF`, `FloatAxioms.add_spec`, `FloatAxioms.mul_spec`, `FloatAxioms.opp_spec`, `FloatAxioms.sub_spec`, `FunctionalExtensionality.functional_extensionality_dep`

C26_binary64_nodes, C26_binary64, C28_binary64.

## `primitive floats and ints`, `ClassicalDedekindReals.sig_forall_dec`, `ClassicalDedekindReals.sig_not_dec`, `Classical_Prop.classic`, `FloatAxioms.Prim2SF_SF2Prim`, `FloatAxioms.Prim2SF_valid`, `FloatAxioms.SF2Prim_Prim2SF`, `FloatAxioms.eqb_spec`, `FloatAxioms.ltb_spec`, `FloatAxioms.mul_spec`, `FloatAxioms.sub_spec`, `FunctionalExtensionality.functional_extensionality_dep`

C12_binary64.

## `primitive floats and ints`, `ClassicalDedekindReals.sig_forall_dec`, `ClassicalDedekindReals.sig_not_dec`, `Classical_Prop.classic`, `FloatAxioms.Prim2SF_SF2Prim`, `FloatAxioms.Prim2SF_valid`, `FloatAxioms.SF2Prim_Prim2SF`, `FloatAxioms.abs_spec`, `FloatAxioms.div_spec`, `FloatAxioms.ltb_spec`, `FloatAxioms.mul_spec`, `FloatAxioms.sub_spec`, `FunctionalExtensionality.functional_extensionality_dep`

C45_binary64.

## `primitive floats and ints`, `ClassicalDedekindReals.sig_forall_dec`, `ClassicalDedekindReals.sig_not_dec`, `Classical_Prop.classic`, `FloatAxioms.Prim2SF_SF2Prim`, `FloatAxioms.Prim2SF_valid`, `FloatAxioms.SF2Prim_Prim2SF`, `FloatAxioms.add_spec`, `FloatAxioms.div_spec`, `FloatAxioms.ltb_spec`, `FloatAxioms.mul_spec`, `FloatAxioms.sub_spec`, `FunctionalExtensionality.functional_extensionality_dep`

C49_binary64.

## `primitive floats and ints`, `ClassicalDedekindReals.sig_forall_dec`, `ClassicalDedekindReals.sig_not_dec`, `Classical_Prop.classic`, `FloatAxioms.Prim2SF_SF2Prim`, `FloatAxioms.Prim2SF_valid`, `FloatAxioms.SF2Prim_Prim2SF`, `FloatAxioms.add_spec`, `FloatAxioms.div_spec`, `FloatAxioms.mul_spec`, `FloatAxioms.sqrt_spec`, `FloatAxioms.sub_spec`, `FunctionalExtensionality.functional_extensionality_dep`

C36_beta_binary64, C36_beta_binary64_digits.

## `primitive floats and ints`, `ClassicalDedekindReals.sig_forall_dec`, `ClassicalDedekindReals.sig_not_dec`, `Classical_Prop.classic`, `FloatAxioms.Prim2SF_SF2Prim`, `FloatAxioms.Prim2SF_valid`, `FloatAxioms.SF2Prim_Prim2SF`, `FloatAxioms.add_spec`, `FloatAxioms.leb_spec`, `FloatAxioms.ltb_spec`, `FloatAxioms.mul_spec`, `FloatAxioms.sub_spec`, `FunctionalExtensionality.functional_extensionality_dep`

C66_search_binary64.

## `primitive floats and ints`, `ClassicalDedekindReals.sig_forall_dec`, `ClassicalDedekindReals.sig_not_dec`, `Classical_Prop.classic`, `FloatAxioms.Prim2SF_SF2Prim`, `FloatAxioms.Prim2SF_valid`, `FloatAxioms.SF2Prim_Prim2SF`, `FloatAxioms.add_spec`, `FloatAxioms.div_spec`, `FloatAxioms.leb_spec`, `FloatAxioms.ltb_spec`, `FloatAxioms.mul_spec`, `FloatAxioms.sub_spec`, `FunctionalExtensionality.functional_extensionality_dep`

C19_binary64, C19_binary64_knots, C20_binary64, C25_binary64_index, C64_indexing.

## `primitive floats and ints`, `ClassicalDedekindReals.sig_forall_dec`, `ClassicalDedekindReals.sig_not_dec`, `Classical_Prop.classic`, `FloatAxioms.Prim2SF_SF2Prim`, `FloatAxioms.Prim2SF_valid`, `FloatAxioms.SF2Prim_Prim2SF`, `FloatAxioms.add_spec`, `FloatAxioms.div_spec`, `FloatAxioms.eqb_spec`, `FloatAxioms.leb_spec`, `FloatAxioms.ltb_spec`, `FloatAxioms.mul_spec`, `FloatAxioms.sub_spec`, `FunctionalExtensionality.functional_extensionality_dep`

C38_binary64, C25_binary64, C25_tables_binary64.

## `primitive floats and ints`, `ClassicalDedekindReals.sig_forall_dec`, `ClassicalDedekindReals.sig_not_dec`, `Classical_Prop.classic`, `FloatAxioms.Prim2SF_SF2Prim`, `FloatAxioms.Prim2SF_valid`, `FloatAxioms.SF2Prim_Prim2SF`, `FloatAxioms.add_spec`, `FloatAxioms.div_spec`, `FloatAxioms.eqb_spec`, `FloatAxioms.leb_spec`, `FloatAxioms.ltb_spec`, `FloatAxioms.mul_spec`, `FloatAxioms.opp_spec`, `FloatAxioms.sub_spec`, `FunctionalExtensionality.functional_extensionality_dep`

C38_tables_binary64, C53_binary64, C53_energy_out_binary64, C53_no_layer_binary64, C64_storage_add, C64_storage_maximum.
