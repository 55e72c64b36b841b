# Axioms per theorem

Generated by `tools/assumptions.py` from `Print Assumptions`.

## Closed under the global context

* C100_before
* C59_double_stages_refuted
* C59_double_user_drop_refuted
* C59_single_user_drop
* C56_inserts_after_anchor
* C56_untouched
* C56_idempotent
* C56_at_most_once
* C56_unterminated_anchor_refuted
* C96_own_file_refuted
* C96_paths
* C96_offline
* C55_call_refuted

## `ClassicalDedekindReals.sig_forall_dec`

* C81_cdl_coupling

## `FunctionalExtensionality.functional_extensionality_dep`

* C96_first_run
* C96_second_run_refuted
* C96_blank_refuted
* C96_failed_pip_refuted
* C96_occupied_refuted
* C96_no_anchor

## `ClassicalDedekindReals.sig_forall_dec`, `FunctionalExtensionality.functional_extensionality_dep`

* C79_panel_properties
* C79_panel_polarization_refuted
* C01_constructor_accepts_exactly_supported
* C01_configuration_is_kept
* C02_tables_match_environment_direction_band
* C03_elevation_rounding
* C04_lookups_never_fail
* C05_table_sanity
* C05_los_probability_monotone
* C05_los_probability_agrees
* C05_values_exist
* C17_per_link_parameter
* C49_subcarriers
* C49_zero_subcarrier
* C49_time_frequency
* C49_time_lags
* C101_panel
* C59_single_precision
* C59_double_precision_refuted
* C59_accepted_types
* C78_sizes_match_ut_locations
* C78_sizes_match_bs_locations
* C01_rejection_kind
* C80_spelling
* C80_bad_values
* C80_scenario_classes
* C80_documented_example_refuted
* C23_powers_for_angles
* C26_symmetric_offsets_partial
* C26_offset_pair_refuted
* C46_interferers_refuted
* C47_scenario_parameters

## `ClassicalDedekindReals.sig_forall_dec`, `ClassicalDedekindReals.sig_not_dec`, `FunctionalExtensionality.functional_extensionality_dep`

* C99_cloud
* C99_lower
* C34_phasor
* C34_satellite_speed
* C35_faraday_matrix
* C36_rotation
* C38_phase_matrix
* C50_frequency_response
* C50_linear
* C50_delay_phase
* C50_normalised
* C51_taps
* C51_whole_lags
* C51_window_covers
* C51_normalised
* C52_dft
* C52_too_many_taps
* C73_conversions_agree
* C53_exponential
* C53_exponential_rejected
* C55_ray_mean
* C81_cdl_velocity
* C57_circular_orbit_speed
* C57_speed_and_shift
* C57_speed_decreases_with_height
* C57_doppler_shift_bounded
* C57_function_returns_shifted_carrier
* C58_effective_path_length_refuted
* C58_effective_path_length_at_zenith_refuted
* C48_relocation
* C14_bounds
* C14_decreases_with_elevation
* C14_increases_with_height

## `ClassicalDedekindReals.sig_forall_dec`, `Classical_Prop.classic`, `FunctionalExtensionality.functional_extensionality_dep`

* C80_constructs_exactly
* C80_object
* C80_arguments_are_kept
* C80_bad_calls
* C80_documented_sizes_refuted

## `ClassicalDedekindReals.sig_forall_dec`, `ClassicalDedekindReals.sig_not_dec`, `Classical_Prop.classic`, `FunctionalExtensionality.functional_extensionality_dep`

* C105_angles
* C105_direction
* C105_range_refuted
* C63_array_constructor
* C39_positions
* C39_antenna_array
* C39_antenna
* C39_centred
* C39_distinct
* C39_dual_pairs
* C40_index_partition
* C41_slants
* C41_vh_refuted
* C42_field_power
* C42_patterns
* C42_aperture
* C42_element_gains
* C42_aperture_with_the_bessel_function
* C79_array_properties
* C109_free_space
* C109_friis
* C109_pathloss
* C109_gain
* C109_satellite
* C109_order
* C109_height
* C10_cached_lsps
* C10_kept_until_topology_change
* C10_fresh_lsps
* C11_raises_before_topology
* C11_defined_after_success
* C11_success_after_failure_refuted
* C31_axes
* C31_duality
* C32_scaling
* C33_sampled_sf_unused_partial
* C33_hidden_shadow_fading
* C33_deterministic_gain_refuted
* C67_paths
* C68_colocated_uts
* C99_rain
* C99_rate
* C28_ray_partition
* C29_sorted_paths
* C30_ricean_split
* C34_ray_doppler
* C34_los_doppler
* C35_faraday_applied
* C36_local_angles
* C37_field_power
* C64_los_phase_refuted
* C64_phase_advances
* C65_field_transformation
* C66_reciprocity_partial
* C66_direct_ray_reciprocity
* C66_scattered_ray_refuted
* C53_one_ring
* C107_fair
* C107_reaches
* C97_exact_law
* C97_centre
* C97_high_elevation_partial
* C97_low_elevation_refuted
* C100_drawn
* C100_points
* C100_indoor_refuted
* C100_units_refuted
* C100_axes
* C100_flat_refuted
* C101_array
* C101_marks_partial
* C101_vh_refuted
* C111_uniform
* C111_common_centre_refuted
* C111_direction_refuted
* C111_motion
* C66_exchange_law
* C66_channel_refuted
* C106_cuts
* C106_surface
* C106_aperture_refuted
* C106_array
* C88_tap_energy
* C88_tap_energy_whole_lags
* C88_single_path
* C92_evolution
* C92_sampling
* C92_rest
* C15_right_iff_same_height
* C16_arrival_right_iff_straight_below
* C21_indoor_refuted
* C38_generated_rays
* C87_relative_accuracy
* C87_double_precision
* C87_single_precision_grid
* C87_single_precision_refuted
* C86_gain_and_directivity
* C86_omni_directivity
* C77_low_penetration_loss
* C77_high_penetration_loss
* C77_wall_loss_laws
* C78_readable_after_an_update
* C78_unset_before_the_first_topology
* C78_configuration_reads_back
* C78_inputs_read_back
* C78_free_space_part_of_basic_pathloss
* C78_additional_pathloss_refuted
* C76_call_forms
* C90_isolation
* C90_alone
* C54_profile
* C54_ricean
* C54_constructs
* C54_rejected
* C54_E_refuted
* C54_delay_spread_setter
* C54_tap_statistics
* C71_doppler_range
* C71_satellite_doppler_refuted
* C72_full_correlation
* C72_correlation_law
* C72_los_tap_refuted
* C72_receive_correlation
* C72_transmit_correlation_refuted
* C72_split_correlation_law
* C74_scalable_spread
* C74_fixed_spread
* C55_constructs
* C55_rejected
* C55_profile
* C55_rays
* C55_reciprocal
* C55_direct_ray
* C75_same_profile
* C110_joint
* C110_link
* C110_elevation
* C18_large_scale_parameter_ranges
* C19_cross_correlation_matrices
* C20_spatial_correlation_matrices
* C60_variates_have_requested_correlation
* C60_cross_correlation_two_uts_refuted
* C83_moments
* C83_mean_power
* C84_link_mean_power
* C84_vertical_omni
* C91_motion
* C91_whole_scene
* C91_nadir
* C81_tdl_properties
* C81_cdl_properties
* C43_pathloss_is_the_documented_sum
* C43_free_space_laws
* C43_gas_loss
* C43_gas_formula
* C43_scintillation_nonnegative
* C58_ionospheric_scintillation
* C58_tropospheric_scintillation_positive
* C58_tropospheric_formula
* C58_averaging_factor_undefined_refuted
* C98_low_orbit
* C98_geostationary_refuted
* C102_accuracy
* C93_uplink_refuted
* C93_downlink_refuted
* C94_relative_accuracy
* C94_pathloss
* C94_grid
* C94_wavelength_refuted
* C82_field
* C82_scattered_ray
* C82_direct_ray
* C21_cluster_mask
* C22_cluster_delays
* C22_negative_delays_refuted
* C23_cluster_powers
* C23_indoor_refuted
* C24_azimuth_angles
* C25_zenith_angles
* C25_indoor_partial
* C26_cluster_bias_refuted
* C27_random_coupling
* C61_zod_offset_unit_refuted
* C62_cross_polarisation
* C103_incomplete
* C103_recovery
* C103_stations_refuted
* C103_answered_refuted
* C103_used_refuted
* C104_numbering
* C104_one_parameter
* C104_two_parameters_refuted
* C95_relative_accuracy
* C95_first_millisecond
* C95_grid
* C95_long_calls_refuted
* C108_one_direction
* C108_halves
* C108_array
* C108_urban_refuted
* C108_uplink_refuted
* C20_public_matrix
* C44_sector_geometry
* C45_boresight_partial
* C45_boresight_in_front
* C45_boresight_refuted
* C69_satellite_faces_down
* C70_generated_topology_accepted
* C85_cell_drop
* C85_drop_area
* C06_latest_successful_value_wins
* C06_latest_accepted_value_wins
* C06_doppler_switch
* C07_incomplete_call_no_effect
* C07_rejected_only_if_incomplete
* C07_failing_call_atomic_refuted
* C08_weather_reused_refuted
* C08_weather_of_last_call
* C09_derived_current_refuted
* C09_derived_fresh_except_weather_partial
* C12_los_semantics
* C12_forced_los_stays
* C13_indoor_outdoor_split
* C14_reported_distance_solves_triangle
* C15_per_example_height_refuted
* C16_los_angles
* C16_arrival_direction_refuted
* C89_wideband_link
