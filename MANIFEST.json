{"claims": [
{"property": "C01", "status": "proved", "theorems": ["C01_constructor_accepts_exactly_supported", "C01_configuration_is_kept", "C01_rejection_kind"], "note": ""},
{"property": "C02", "status": "proved", "theorems": ["C02_tables_match_environment_direction_band"], "note": ""},
{"property": "C03", "status": "proved", "theorems": ["C03_elevation_rounding"], "note": ""},
{"property": "C04", "status": "proved", "theorems": ["C04_lookups_never_fail"], "note": ""},
{"property": "C05", "status": "proved", "theorems": ["C05_table_sanity", "C05_los_probability_monotone", "C05_los_probability_agrees", "C05_values_exist"], "note": ""},
{"property": "C06", "status": "proved", "theorems": ["C06_latest_successful_value_wins", "C06_latest_accepted_value_wins", "C06_doppler_switch"], "note": ""},
{"property": "C07", "status": "proved", "theorems": ["C07_incomplete_call_no_effect", "C07_rejected_only_if_incomplete", "C07_failing_call_atomic_refuted"], "note": "Finding: calls that fail for other reasons (e.g. two base stations) are not atomic (C07_failing_call_atomic_refuted)."},
{"property": "C08", "status": "partial", "theorems": ["C08_weather_reused_refuted", "C08_weather_of_last_call"], "note": "The property is false of the code: refuted by a two-call history. The law that holds (weather of the last call, defaults for what it omits) is proved."},
{"property": "C09", "status": "partial", "theorems": ["C09_derived_current_refuted", "C09_derived_fresh_except_weather_partial"], "note": "False for weather-only calls (refuted); everything else proved fresh in C09_derived_fresh_except_weather_partial."},
{"property": "C10", "status": "proved", "theorems": ["C10_cached_lsps", "C10_kept_until_topology_change", "C10_fresh_lsps"], "note": ""},
{"property": "C11", "status": "partial", "theorems": ["C11_raises_before_topology", "C11_defined_after_success", "C11_success_after_failure_refuted"], "note": "Raising before any success, and definedness when no call failed, are proved; a success reported after a failed first call leaves the object unusable (refuted)."},
{"property": "C12", "status": "proved", "theorems": ["C12_los_semantics", "C12_forced_los_stays"], "note": ""},
{"property": "C13", "status": "proved", "theorems": ["C13_indoor_outdoor_split"], "note": ""},
{"property": "C14", "status": "proved", "theorems": ["C14_reported_distance_solves_triangle", "C14_bounds", "C14_decreases_with_elevation", "C14_increases_with_height"], "note": ""},
{"property": "C15", "status": "partial", "theorems": ["C15_right_iff_same_height", "C15_per_example_height_refuted"], "note": "The property is false of the code: only the first example's height is used. The reported distance is proved right exactly for the examples whose satellite has that height (C15_right_iff_same_height, C14_reported_distance_solves_triangle)."},
{"property": "C16", "status": "partial", "theorems": ["C16_arrival_right_iff_straight_below", "C16_los_angles", "C16_arrival_direction_refuted"], "note": "Ranges and departure direction proved; the arrival direction points horizontally away from the satellite (refuted), it is right exactly straight below the satellite."},
{"property": "C17", "status": "proved", "theorems": ["C17_per_link_parameter"], "note": ""},
{"property": "C18", "status": "proved", "theorems": ["C18_large_scale_parameter_ranges"], "note": ""},
{"property": "C19", "status": "proved", "theorems": ["C19_cross_correlation_matrices"], "note": ""},
{"property": "C20", "status": "proved", "theorems": ["C20_spatial_correlation_matrices", "C20_public_matrix"], "note": ""},
{"property": "C21", "status": "partial", "theorems": ["C21_indoor_refuted", "C21_cluster_mask"], "note": "Proved for outdoor UTs; an indoor link has no active cluster at all (count nlos - nlos), refuted in every configuration (C21_indoor_refuted); consequence under C23."},
{"property": "C22", "status": "partial", "theorems": ["C22_cluster_delays", "C22_negative_delays_refuted"], "note": "Proved for every draw with K >= -63 dB on LoS links; refuted below (the delay scaling polynomial becomes negative), see C22_negative_delays_refuted."},
{"property": "C23", "status": "partial", "theorems": ["C23_cluster_powers", "C23_powers_for_angles", "C23_indoor_refuted"], "note": "Proved for outdoor UTs; refuted for indoor UTs (no active cluster, normalisation 0/0), see C23_indoor_refuted."},
{"property": "C24", "status": "proved", "theorems": ["C24_azimuth_angles"], "note": ""},
{"property": "C25", "status": "partial", "theorems": ["C25_zenith_angles", "C25_indoor_partial"], "note": "Proved end to end for outdoor UTs. Indoor arrivals only at the level of one link, because an indoor link has undefined powers (C23_indoor_refuted)."},
{"property": "C26", "status": "partial", "theorems": ["C26_symmetric_offsets_partial", "C26_offset_pair_refuted", "C26_cluster_bias_refuted"], "note": "Nine of ten pairs proved symmetric; refuted for rays 15/16 (1.1481 and -0.1481): the offsets sum to 1 and bias every cluster by cAS/20."},
{"property": "C27", "status": "proved", "theorems": ["C27_random_coupling"], "note": ""},
{"property": "C28", "status": "proved", "theorems": ["C28_ray_partition"], "note": ""},
{"property": "C29", "status": "proved", "theorems": ["C29_sorted_paths"], "note": ""},
{"property": "C30", "status": "proved", "theorems": ["C30_ricean_split"], "note": ""},
{"property": "C31", "status": "proved", "theorems": ["C31_axes", "C31_duality"], "note": "Duality of the two directions holds below 600 km; above, the Faraday rotation is applied on the transmit side in both directions."},
{"property": "C32", "status": "proved", "theorems": ["C32_scaling"], "note": ""},
{"property": "C33", "status": "partial", "theorems": ["C33_sampled_sf_unused_partial", "C33_hidden_shadow_fading", "C33_deterministic_gain_refuted"], "note": "The property is false of the code: the basic path loss always contains a shadow fading draw. The sampled SF parameter is proved to have no effect."},
{"property": "C34", "status": "proved", "theorems": ["C34_ray_doppler", "C34_los_doppler", "C34_phasor", "C34_satellite_speed"], "note": ""},
{"property": "C35", "status": "proved", "theorems": ["C35_faraday_matrix", "C35_faraday_applied"], "note": ""},
{"property": "C36", "status": "proved", "theorems": ["C36_rotation", "C36_local_angles"], "note": ""},
{"property": "C37", "status": "proved", "theorems": ["C37_field_power"], "note": ""},
{"property": "C38", "status": "proved", "theorems": ["C38_phase_matrix", "C38_generated_rays"], "note": ""},
{"property": "C39", "status": "proved", "theorems": ["C39_positions", "C39_antenna_array", "C39_antenna", "C39_centred", "C39_distinct", "C39_dual_pairs"], "note": ""},
{"property": "C40", "status": "proved", "theorems": ["C40_index_partition"], "note": ""},
{"property": "C41", "status": "partial", "theorems": ["C41_slants", "C41_vh_refuted"], "note": "V, H and cross are right (proved); dual VH arrays are built with slants -45/+45 degrees because the constructor compares polarization instead of polarization_type with 'VH' (refuted for every VH array)."},
{"property": "C42", "status": "proved", "theorems": ["C42_field_power", "C42_patterns", "C42_aperture", "C42_element_gains", "C42_aperture_with_the_bessel_function"], "note": "The Bessel function is an argument of the model; only the bound 'gain at most 1' of the aperture pattern needs |J1(x)| <= |x|/2."},
{"property": "C43", "status": "proved", "theorems": ["C43_pathloss_is_the_documented_sum", "C43_free_space_laws", "C43_gas_loss", "C43_gas_formula", "C43_scintillation_nonnegative"], "note": ""},
{"property": "C44", "status": "proved", "theorems": ["C44_sector_geometry"], "note": ""},
{"property": "C45", "status": "partial", "theorems": ["C45_boresight_partial", "C45_boresight_in_front", "C45_boresight_refuted"], "note": "False of the code: the bearing is atan(y/x) without quadrant, so UTs with a negative x coordinate look exactly away from the satellite (refuted); proved for x >= 0 (NaN exactly below the satellite)."},
{"property": "C46", "status": "partial", "theorems": ["C46_interferers_refuted"], "note": "False of the code: the function raises for all arguments (undefined name `dtype`), proved as C46_interferers_refuted."},
{"property": "C47", "status": "proved", "theorems": ["C47_scenario_parameters"], "note": ""},
{"property": "C48", "status": "proved", "theorems": ["C48_relocation"], "note": ""},
{"property": "C49", "status": "proved", "theorems": ["C49_subcarriers", "C49_zero_subcarrier", "C49_time_frequency", "C49_time_lags"], "note": ""},
{"property": "C50", "status": "proved", "theorems": ["C50_frequency_response", "C50_linear", "C50_delay_phase", "C50_normalised"], "note": ""},
{"property": "C51", "status": "proved", "theorems": ["C51_taps", "C51_whole_lags", "C51_window_covers", "C51_normalised"], "note": ""},
{"property": "C52", "status": "proved", "theorems": ["C52_dft", "C52_too_many_taps"], "note": ""},
{"property": "C53", "status": "proved", "theorems": ["C53_exponential", "C53_exponential_rejected", "C53_one_ring"], "note": ""},
{"property": "C54", "status": "partial", "theorems": ["C54_profile", "C54_ricean", "C54_constructs", "C54_rejected", "C54_E_refuted", "C54_delay_spread_setter", "C54_tap_statistics"], "note": "Everything proved for the documented models A-D, A30, B100, C300; the accepted name 'E' cannot be constructed (refuted)."},
{"property": "C55", "status": "partial", "theorems": ["C55_constructs", "C55_rejected", "C55_profile", "C55_rays", "C55_ray_mean", "C55_reciprocal", "C55_direct_ray", "C55_call_refuted"], "note": "Construction, profile, rays and reciprocity proved; calling any model raises TypeError (refuted)."},
{"property": "C56", "status": "partial", "theorems": ["C56_inserts_after_anchor", "C56_untouched", "C56_idempotent", "C56_at_most_once", "C56_unterminated_anchor_refuted"], "note": "Proved for every file in which the anchor line ends with a line feed; an unterminated anchor line at the end of the file is destroyed (refuted)."},
{"property": "C57", "status": "proved", "theorems": ["C57_circular_orbit_speed", "C57_speed_and_shift", "C57_speed_decreases_with_height", "C57_doppler_shift_bounded", "C57_function_returns_shifted_carrier"], "note": "compute_stallite_doppler returns carrier plus shift; unused by the channel generation."},
{"property": "C58", "status": "partial", "theorems": ["C58_ionospheric_scintillation", "C58_tropospheric_scintillation_positive", "C58_tropospheric_formula", "C58_effective_path_length_refuted", "C58_effective_path_length_at_zenith_refuted", "C58_averaging_factor_undefined_refuted"], "note": "Ionospheric law and non-negativity proved; the tropospheric term uses a wrong effective path length and an undefined averaging factor for large apertures (refuted)."},
{"property": "C59", "status": "partial", "theorems": ["C59_single_precision", "C59_double_precision_refuted", "C59_accepted_types", "C59_double_stages_refuted", "C59_double_user_drop_refuted", "C59_single_user_drop"], "note": "Refuted as stated: with precision 'double' set_topology always stops with a type mismatch (tf.math.sin of a Python float is float32), proved for every scenario and every location type; the 'single' half is proved."},
{"property": "C60", "status": "partial", "theorems": ["C60_variates_have_requested_correlation", "C60_cross_correlation_two_uts_refuted"], "note": "Spatial covariance for any number of UTs proved, the cross-correlation for the first UT of each state, and for every outdoor UT up to a factor of at most 1; with two UTs the cross-correlation is weaker than requested (refuted for every configuration)."},
{"property": "C61", "status": "partial", "theorems": ["C61_zod_offset_unit_refuted"], "note": "Refuted: the offset is computed in radians and added to an angle in degrees (C61_zod_offset_unit_refuted); what the code does instead is in C25_zenith_angles."},
{"property": "C62", "status": "proved", "theorems": ["C62_cross_polarisation"], "note": ""},
{"property": "C63", "status": "proved", "theorems": ["C63_array_constructor"], "note": ""},
{"property": "C64", "status": "partial", "theorems": ["C64_los_phase_refuted", "C64_phase_advances"], "note": "Refuted: the code multiplies by exp(+j 2 pi d/lambda); C64_los_phase_refuted shows the documented phase fails for every link with a non-zero direct ray."},
{"property": "C65", "status": "proved", "theorems": ["C65_field_transformation"], "note": ""},
{"property": "C66", "status": "partial", "theorems": ["C66_reciprocity_partial", "C66_direct_ray_reciprocity", "C66_scattered_ray_refuted", "C66_exchange_law", "C66_channel_refuted"], "note": "Direct ray proved at every height, scattered rays below 600 km; refuted for scattered rays from 600 km on (Faraday rotation on the transmit side in both directions), for single rays and for whole channel outputs; the exact law is C66_exchange_law."},
{"property": "C67", "status": "proved", "theorems": ["C67_paths"], "note": ""},
{"property": "C68", "status": "proved", "theorems": ["C68_colocated_uts"], "note": ""},
{"property": "C69", "status": "proved", "theorems": ["C69_satellite_faces_down"], "note": ""},
{"property": "C70", "status": "proved", "theorems": ["C70_generated_topology_accepted"], "note": ""},
{"property": "C71", "status": "partial", "theorems": ["C71_doppler_range", "C71_satellite_doppler_refuted"], "note": "The exact range is proved; the satellite part is a frequency in Hz divided by 3600 added to an angular frequency, so the property is false of the code (refuted)."},
{"property": "C72", "status": "partial", "theorems": ["C72_full_correlation", "C72_correlation_law", "C72_los_tap_refuted", "C72_receive_correlation", "C72_transmit_correlation_refuted", "C72_split_correlation_law"], "note": "Full and receive-side matrices proved on every scattered tap, and the correlation law of any two taps of a model with a full matrix or with one-sided matrices; the transmit-side matrix gives wrong powers, and on the first tap of a LoS model the specular part is filtered as well, which changes the tap power (both refuted)."},
{"property": "C73", "status": "proved", "theorems": ["C73_conversions_agree"], "note": ""},
{"property": "C74", "status": "proved", "theorems": ["C74_scalable_spread", "C74_fixed_spread"], "note": ""},
{"property": "C75", "status": "proved", "theorems": ["C75_same_profile"], "note": ""},
{"property": "C76", "status": "proved", "theorems": ["C76_call_forms"], "note": ""},
{"property": "C77", "status": "proved", "theorems": ["C77_low_penetration_loss", "C77_high_penetration_loss", "C77_wall_loss_laws"], "note": ""},
{"property": "C78", "status": "partial", "theorems": ["C78_readable_after_an_update", "C78_unset_before_the_first_topology", "C78_configuration_reads_back", "C78_inputs_read_back", "C78_sizes_match_ut_locations", "C78_sizes_match_bs_locations", "C78_free_space_part_of_basic_pathloss", "C78_additional_pathloss_refuted"], "note": "Refuted for one property: additional_pathloss raises AttributeError in every reachable state (its computation is commented out of the update). All other documented properties proved."},
{"property": "C79", "status": "partial", "theorems": ["C79_array_properties", "C79_panel_properties", "C79_panel_polarization_refuted"], "note": "Arrays proved; panels proved except that 'polarization' is not readable (misspelled property, refuted)."},
{"property": "C80", "status": "partial", "theorems": ["C80_constructs_exactly", "C80_object", "C80_arguments_are_kept", "C80_spelling", "C80_bad_calls", "C80_bad_values", "C80_scenario_classes", "C80_documented_sizes_refuted", "C80_documented_example_refuted"], "note": "construction, argument binding and read-back proved; the documented defaults of street width and building height and the documented example call are refuted"},
{"property": "C81", "status": "proved", "theorems": ["C81_tdl_properties", "C81_cdl_properties", "C81_cdl_coupling", "C81_cdl_velocity"], "note": ""},
{"property": "C82", "status": "proved", "theorems": ["C82_field", "C82_scattered_ray", "C82_direct_ray"], "note": ""},
{"property": "C83", "status": "proved", "theorems": ["C83_moments", "C83_mean_power"], "note": ""},
{"property": "C84", "status": "proved", "theorems": ["C84_link_mean_power", "C84_vertical_omni"], "note": ""},
{"property": "C85", "status": "proved", "theorems": ["C85_cell_drop", "C85_drop_area"], "note": ""},
{"property": "C86", "status": "proved", "theorems": ["C86_gain_and_directivity", "C86_omni_directivity"], "note": ""},
{"property": "C87", "status": "partial", "theorems": ["C87_relative_accuracy", "C87_double_precision", "C87_single_precision_grid", "C87_single_precision_refuted"], "note": "proved for double precision; refuted for single precision, the default: the computed phase is a multiple of 2 rad (16 rad in Ka band) and distances half a wavelength apart give the same factor"},
{"property": "C88", "status": "proved", "theorems": ["C88_tap_energy", "C88_tap_energy_whole_lags", "C88_single_path"], "note": ""},
{"property": "C89", "status": "proved", "theorems": ["C89_wideband_link"], "note": ""},
{"property": "C90", "status": "proved", "theorems": ["C90_isolation", "C90_alone"], "note": ""},
{"property": "C91", "status": "proved", "theorems": ["C91_motion", "C91_whole_scene", "C91_nadir"], "note": ""},
{"property": "C92", "status": "proved", "theorems": ["C92_evolution", "C92_sampling", "C92_rest"], "note": ""},
{"property": "C93", "status": "partial", "theorems": ["C93_uplink_refuted", "C93_downlink_refuted"], "note": "The property is false of the code: the routine raises for every supported configuration with an elevation below 90 degrees (uplink) and for every satellite height above 14 m (downlink). At exactly 90 degrees in the uplink the outcome depends on rounding and is not stated."},
{"property": "C94", "status": "partial", "theorems": ["C94_relative_accuracy", "C94_pathloss", "C94_grid", "C94_wavelength_refuted"], "note": "relative accuracy 10^-5 and the path loss consequence are proved; accuracy to a fraction of a wavelength is refuted (the computed distance is a multiple of 0.5 m from 45 degrees on)"},
{"property": "C95", "status": "partial", "theorems": ["C95_relative_accuracy", "C95_first_millisecond", "C95_grid", "C95_long_calls_refuted"], "note": "relative accuracy in every precision and 0.01 rad within the first millisecond are proved; refuted for long calls in single precision (half-radian grid)"},
{"property": "C96", "status": "partial", "theorems": ["C96_first_run", "C96_second_run_refuted", "C96_blank_refuted", "C96_failed_pip_refuted", "C96_own_file_refuted", "C96_occupied_refuted", "C96_paths", "C96_no_anchor", "C96_offline"], "note": "The first run is proved right when every step succeeds and the directories contain no blank. Refuted: a second run puts a link to the package into the package, a blank in the host's directory or a failed pip leaves the host with an import of a missing module, a file in the place of the link does the same, and a file of the user named like the hook is deleted."},
{"property": "C97", "status": "partial", "theorems": ["C97_exact_law", "C97_centre", "C97_high_elevation_partial", "C97_low_elevation_refuted"], "note": "Proved for high elevations, with the exact law at the beam centre; refuted up to 20 degrees elevation: every link of every generated topology has a reported 3D distance below the 2D distance."},
{"property": "C98", "status": "partial", "theorems": ["C98_low_orbit", "C98_geostationary_refuted"], "note": "Proved for heights up to 1200 km and elevations from 10 degrees on; refuted for beam centres beyond 2^26 m (geostationary orbit), where UTs drawn 7 m apart collapse and set_topology refuses the topology."},
{"property": "C99", "status": "proved", "theorems": ["C99_cloud", "C99_lower", "C99_rain", "C99_rate"], "note": ""},
{"property": "C100", "status": "partial", "theorems": ["C100_before", "C100_drawn", "C100_points", "C100_indoor_refuted", "C100_units_refuted", "C100_axes", "C100_flat_refuted"], "note": "Numbers, points of UTs outdoors, units per kind of node and axes proved; refuted for UTs indoors (no point), for a common unit (stations in km, UTs in m) and for scenes without extent in one direction (no visible axis)."},
{"property": "C101", "status": "partial", "theorems": ["C101_array", "C101_marks_partial", "C101_vh_refuted", "C101_panel"], "note": "Places, numbers and marks proved; refuted for the marks of 'VH' arrays."},
{"property": "C102", "status": "proved", "theorems": ["C102_accuracy"], "note": ""},
{"property": "C103", "status": "partial", "theorems": ["C103_incomplete", "C103_recovery", "C103_stations_refuted", "C103_answered_refuted", "C103_used_refuted"], "note": "Proved for missing arguments and for recovery by a complete topology; refuted for calls with another number of stations than one (later calls raise) and for coinciding UTs (the refused topology is used)."},
{"property": "C104", "status": "partial", "theorems": ["C104_numbering", "C104_one_parameter", "C104_two_parameters_refuted"], "note": "Acceptance, the range of coefficients and delays, and the covariances of one parameter are proved independent of the numbering; refuted for the covariance of delay spread and shadow fading of one UT."},
{"property": "C105", "status": "partial", "theorems": ["C105_angles", "C105_direction", "C105_range_refuted"], "note": "Accuracy of the four angles and of the departure direction is proved, with the closed range [0,360]; the half-open range is refuted for a sector of positions in every precision. Correctly rounded arc tangent and square root, unbounded exponents."},
{"property": "C106", "status": "partial", "theorems": ["C106_cuts", "C106_surface", "C106_aperture_refuted", "C106_array"], "note": "Cuts and surfaces proved for every pattern except the surface of an aperture, whose distances are natural logarithms and not dB (refuted)."},
{"property": "C107", "status": "proved", "theorems": ["C107_fair", "C107_reaches"], "note": ""},
{"property": "C108", "status": "partial", "theorems": ["C108_one_direction", "C108_halves", "C108_array", "C108_urban_refuted", "C108_uplink_refuted"], "note": "Proved downlink outside the Urban environment, each half also separately; false for the azimuths in the Urban environment and for the zenith angles in the uplink (refuted for every link and cluster)."},
{"property": "C109", "status": "proved", "theorems": ["C109_free_space", "C109_friis", "C109_pathloss", "C109_gain", "C109_satellite", "C109_order", "C109_height"], "note": ""},
{"property": "C110", "status": "proved", "theorems": ["C110_joint", "C110_link", "C110_elevation"], "note": ""},
{"property": "C111", "status": "partial", "theorems": ["C111_uniform", "C111_common_centre_refuted", "C111_direction_refuted", "C111_motion"], "note": "Uniform and independent drop within the square, height, speed and heading proved; refuted for the batch (one beam centre for all examples) and for the directions of the beam centre."}
]}
