{"id": "C01", "title": "Construction accepts exactly the supported configurations", "statement": "Constructing a channel model succeeds if and only if the direction is 'uplink' or 'downlink', the carrier lies in [1.9,4] GHz or [19,40] GHz, both arrays are panel arrays, their wavelengths equal each other and the wavelength of the carrier, and the elevation angle lies in [10,90] degrees. Otherwise it raises and no model exists.", "quantifier": "every carrier frequency, direction string, pair of arrays and elevation angle (reals)", "why_tests_cant": "the accepted region is a continuum with four band edges, two angle edges and equality conditions; samples cannot cover the boundaries", "anchors": ["OpenNTN/system_level_scenario.py:SystemLevelScenario.__init__"]}
{"id": "C02", "title": "Parameter table selection", "statement": "For every accepted configuration the LoS table and the NLoS table that are loaded belong to the model's own environment, the requested direction (UL/DL) and the band that contains the carrier (S or Ka), and both files exist in the package.", "quantifier": "every environment, direction and accepted carrier frequency", "why_tests_cant": "a continuum of carriers; one wrong branch boundary selects statistics of another band silently", "anchors": ["OpenNTN/dense_urban_scenario.py:los_parameter_filepath,nlos_parameter_filepath", "OpenNTN/urban_scenario.py", "OpenNTN/sub_urban_scenario.py", "OpenNTN/models/*.json"]}
{"id": "C03", "title": "Elevation rounding selects an existing, nearest table column", "statement": "For every accepted elevation angle the table column that is used is a multiple of ten between 10 and 90 and is at distance at most 5 degrees from the angle; a tie is resolved to the multiple whose tens digit is even.", "quantifier": "every real elevation in [10,90]", "why_tests_cant": "continuum of angles; the rounding mode only shows at ties", "anchors": ["OpenNTN/system_level_scenario.py:get_param,num_clusters_los,num_clusters_nlos,num_clusters_max", "OpenNTN/utils.py:compute_pathloss_basic"]}
{"id": "C04", "title": "Parameter look-ups never fail", "statement": "For every accepted configuration and every LoS state, every parameter name the generators request is present in the loaded tables for the column in use, is finite or '-inf', and only the departure-spread means are '-inf'.", "quantifier": "all 24 tables, all 9 columns, all requested parameter names, every accepted configuration", "why_tests_cant": "a missing key in one of 24 files x 9 columns raises only in one corner of the configuration space", "anchors": ["OpenNTN/system_level_scenario.py:get_param,_load_params", "OpenNTN/models/*.json", "OpenNTN/lsp.py", "OpenNTN/rays.py", "OpenNTN/system_level_channel.py", "OpenNTN/utils.py:compute_pathloss_basic"]}
{"id": "C05", "title": "Tables satisfy what the generators need", "statement": "In every table and column: standard deviations are >= 0, correlation distances are > 0, the delay scaling factor is > 1, the LoS probability lies in [0,1] and does not decrease with elevation, LoS and NLoS files agree on it, cluster counts are at least 2, and the per-cluster angle spreads are non-negative.", "quantifier": "all 24 tables and 9 columns", "why_tests_cant": "each generator divides by, takes logs of, or indexes with these values; the conditions quantify over the whole data set", "anchors": ["OpenNTN/models/*.json", "OpenNTN/system_level_scenario.py:_load_params"]}
{"id": "C06", "title": "Topology arguments: latest given value wins", "statement": "After any history of set_topology calls, each of the locations, orientations, velocities, indoor states and the forced-LoS request equals the value given in the most recent successful call that specified it.", "quantifier": "every finite history of set_topology calls with any subset of arguments", "why_tests_cant": "histories are unbounded and a dropped update only shows after a specific sequence", "anchors": ["OpenNTN/system_level_scenario.py:set_topology", "OpenNTN/system_level_channel.py:set_topology"]}
{"id": "C07", "title": "Incomplete first topology is rejected without side effects", "statement": "A set_topology call that leaves a required value never given before raises, and the model behaves afterwards exactly as if the call had not been made.", "quantifier": "every reachable state and every argument subset", "why_tests_cant": "depends on the history and on which of six values is missing; atomicity of failure cannot be sampled", "anchors": ["OpenNTN/system_level_scenario.py:set_topology"]}
{"id": "C08", "title": "Weather parameters are reused when not specified", "statement": "A set_topology call that does not specify an atmospheric parameter leaves the previously given value in force (documented behaviour).", "quantifier": "every history of set_topology calls", "why_tests_cant": "quantifies over histories; a single call never shows the reset", "anchors": ["OpenNTN/system_level_scenario.py:set_topology"]}
{"id": "C09", "title": "Derived topology quantities are never stale", "statement": "After any history of successful set_topology calls the distances, angles, LoS states, LSP statistics and path losses that a channel call uses are those of the current locations, indoor states, forced-LoS request and weather parameters.", "quantifier": "every finite history of set_topology calls", "why_tests_cant": "staleness needs a particular update order; histories are unbounded", "anchors": ["OpenNTN/system_level_scenario.py:set_topology,_compute_distance_2d_3d_and_angles,_sample_los", "OpenNTN/system_level_channel.py:set_topology"]}
{"id": "C10", "title": "LSP caching contract", "statement": "With always_generate_lsp disabled, every channel call uses the large-scale parameters sampled at the last topology update, whatever calls happened since; with it enabled every call draws fresh ones. A topology update that changes no location, indoor state or LoS request does not resample.", "quantifier": "every history of set_topology and channel calls, every random stream", "why_tests_cant": "unbounded histories; equal-looking samples hide resampling", "anchors": ["OpenNTN/system_level_channel.py:set_topology,__call__", "OpenNTN/lsp.py:LSPGenerator.__call__"]}
{"id": "C11", "title": "Channel calls before a topology fail", "statement": "Calling a freshly constructed model, or one for which every set_topology call failed, raises; after the first successful set_topology call a channel call is defined.", "quantifier": "every history", "why_tests_cant": "needs all failing prefixes", "anchors": ["OpenNTN/system_level_channel.py:__call__,set_topology"]}
{"id": "C12", "title": "LoS state semantics", "statement": "A link is LoS only if its UT is outdoors. If LoS is forced on, exactly the outdoor links are LoS; if forced off, none is; otherwise an outdoor link is LoS exactly when its uniform draw is below the table's LoS probability. Once forced, the state cannot be un-forced by later calls that omit the argument.", "quantifier": "every indoor pattern, draw and history", "why_tests_cant": "2^(batch x bs x ut) patterns and continuous draws", "anchors": ["OpenNTN/system_level_scenario.py:_sample_los", "OpenNTN/utils.py:sample_bernoulli", "OpenNTN/dense_urban_scenario.py:los_probability"]}
{"id": "C13", "title": "Indoor/outdoor distance split", "statement": "For every link with positive 2D distance, indoor plus outdoor distance equals the total distance in 2D and in 3D, the split ratio is the same in both, outdoor UTs have no indoor part, and an indoor UT's indoor 2D distance is in [0,10) m.", "quantifier": "every link geometry, indoor pattern and draw", "why_tests_cant": "continuum of geometries", "anchors": ["OpenNTN/system_level_scenario.py:_sample_indoor_distance"]}
{"id": "C14", "title": "Slant range solves the spherical-Earth triangle", "statement": "The 3D distance reported for a satellite at height h seen under elevation e is the positive root of (R+h)^2 = R^2 + d^2 + 2 R d sin e; it is >= h, equals h at 90 degrees, strictly decreases with elevation and strictly increases with height.", "quantifier": "every height > 0 and elevation in [10,90]", "why_tests_cant": "continuum, monotonicity is a two-point universal statement", "anchors": ["OpenNTN/system_level_scenario.py:_compute_distance_2d_3d_and_angles"]}
{"id": "C15", "title": "Each batch example uses its own satellite height", "statement": "It is possible to set up a different topology per batch example: the 3D distance of a link depends on the satellite of that batch example and BS.", "quantifier": "every batch of topologies", "why_tests_cant": "needs batches with unequal heights", "anchors": ["OpenNTN/system_level_scenario.py:_compute_distance_2d_3d_and_angles,set_topology"]}
{"id": "C16", "title": "LoS angles", "statement": "All four LoS angles lie in [0,360). The departure direction given by (ZoD,AoD) is the direction from BS to UT; the arrival direction given by (ZoA,AoA) is the direction from UT back to BS.", "quantifier": "every pair of distinct locations", "why_tests_cant": "continuum of geometries including all quadrants and the wrap", "anchors": ["OpenNTN/system_level_scenario.py:_compute_distance_2d_3d_and_angles", "OpenNTN/utils.py:wrap_angle_0_360,rad_2_deg"]}
{"id": "C17", "title": "Per-link parameter selection", "statement": "Each link's statistics are taken from the LoS table if the link is LoS and from the NLoS table otherwise, in the column of the elevation angle, independently of the other links.", "quantifier": "every table, column, parameter, link and LoS pattern", "why_tests_cant": "2^links patterns", "anchors": ["OpenNTN/system_level_scenario.py:get_param", "OpenNTN/dense_urban_scenario.py:_compute_lsp_log_mean_std"]}
{"id": "C18", "title": "LSP ranges", "statement": "Every sampled delay spread, shadow fading and K-factor is > 0; azimuth spreads are in [0,104] degrees and zenith spreads in [0,52] degrees; a '-inf' mean gives a spread of exactly 0.", "quantifier": "every normal draw, every table, every link", "why_tests_cant": "normal draws are unbounded; the caps matter only in the tails", "anchors": ["OpenNTN/lsp.py:LSPGenerator.__call__", "OpenNTN/dense_urban_scenario.py:_compute_lsp_log_mean_std"]}
{"id": "C19", "title": "Cross-correlation matrix is a valid correlation matrix", "statement": "For every table and column, the 7x7 matrix built for a link is symmetric, has unit diagonal, contains each of the 21 table coefficients at the position of its two parameters, and is positive definite, so its Cholesky factor exists.", "quantifier": "all tables and columns, every non-zero vector (positive definiteness)", "why_tests_cant": "positive definiteness quantifies over all vectors; an unsymmetric write shows only in one entry", "anchors": ["OpenNTN/lsp.py:_compute_cross_lsp_correlation_matrix", "OpenNTN/models/*.json"]}
{"id": "C20", "title": "Spatial correlation matrix is a valid correlation matrix", "statement": "For every topology the UT correlation matrix of each LSP has unit diagonal, is symmetric, has entries in [0,1], is exp(-d/D) within a propagation-state group and 0 across groups, and is positive definite for UTs at distinct locations.", "quantifier": "every topology, LoS and indoor pattern", "why_tests_cant": "continuum of locations, all patterns", "anchors": ["OpenNTN/lsp.py:_compute_lsp_spatial_correlation_sqrt", "OpenNTN/system_level_scenario.py:spatial_correlation_matrix"]}
{"id": "C21", "title": "Cluster mask", "statement": "For each link exactly the first n clusters are active, n being the table's cluster count for the link's state, and the rest are inactive.", "quantifier": "every LoS/indoor pattern and table", "why_tests_cant": "patterns and 24 tables", "anchors": ["OpenNTN/rays.py:_compute_clusters_mask"]}
{"id": "C22", "title": "Cluster delays", "statement": "Delays are non-negative, sorted ascending, start at exactly 0 and there is one per cluster, for every draw; LoS scaling preserves this.", "quantifier": "every uniform draw, delay spread and K-factor", "why_tests_cant": "continuum of draws; LoS scaling polynomial changes sign for extreme K", "anchors": ["OpenNTN/rays.py:_cluster_delays"]}
{"id": "C23", "title": "Cluster powers", "statement": "Cluster powers are non-negative, sum to 1 over the active clusters and are 0 on inactive ones; the powers used for angle generation also sum to 1 and give the first LoS cluster the additional share K/(K+1).", "quantifier": "every delay vector, shadowing draw, K-factor and mask", "why_tests_cant": "continuum of draws", "anchors": ["OpenNTN/rays.py:_cluster_powers"]}
{"id": "C24", "title": "Azimuth angles", "statement": "Every ray azimuth lies in (-180,180] and is congruent modulo 360 to the generated value; for a LoS link the first cluster is centred exactly on the LoS azimuth.", "quantifier": "every draw, spread, power vector and LoS direction", "why_tests_cant": "continuum with wrap-around", "anchors": ["OpenNTN/rays.py:_azimuth_angles,_azimuth_angles_of_departure,_azimuth_angles_of_arrival"]}
{"id": "C25", "title": "Zenith angles", "statement": "Every ray zenith lies in [0,180] and points to the same elevation cone as the generated value (equal cosine); for a LoS link the first cluster is centred on the LoS zenith; for an indoor UT arrivals are centred on 90 degrees.", "quantifier": "every draw, spread, power vector, LoS direction and indoor state", "why_tests_cant": "continuum with reflection at the poles", "anchors": ["OpenNTN/rays.py:_zenith_angles"]}
{"id": "C26", "title": "Intra-cluster ray offsets are symmetric", "statement": "The twenty intra-cluster offsets come in pairs +-a, so rays do not bias the cluster centre.", "quantifier": "all twenty offsets and every cluster centre", "why_tests_cant": "a data-level universal statement (the mean over all rays for every spread)", "anchors": ["OpenNTN/rays.py:RaysGenerator.__init__", "OpenNTN/cdl.py"]}
{"id": "C27", "title": "Random coupling is a permutation", "statement": "Random coupling rearranges the rays of each cluster: no ray angle is lost or duplicated, other clusters are untouched, and all UTs share the same arrangement.", "quantifier": "every random draw, any number of clusters and rays", "why_tests_cant": "20! permutations", "anchors": ["OpenNTN/rays.py:_shuffle_angles,_random_coupling"]}
{"id": "C28", "title": "Sub-clustering partitions the rays", "statement": "The two strongest clusters are split into three sub-clusters whose ray sets partition the twenty rays (10, 6, 4); n clusters give n+4 paths; every ray coefficient contributes to exactly one path, so the sum over paths is unchanged by sub-clustering.", "quantifier": "every coefficient tensor, power vector (including ties) and n >= 2", "why_tests_cant": "continuum of coefficients, ties in the ordering", "anchors": ["OpenNTN/channel_coefficients.py:_step_11_reduce_nlos"]}
{"id": "C29", "title": "Path delays are sorted and stay paired with their coefficients", "statement": "The returned delays are ascending and the k-th coefficient is the sum over exactly the rays whose delay is the k-th delay; the strongest clusters' sub-paths are delayed by 0, 1.28 and 2.56 times the cluster delay spread.", "quantifier": "every delay and power vector, coefficients and delay spread", "why_tests_cant": "permutation pairing errors are invisible in distributional tests", "anchors": ["OpenNTN/channel_coefficients.py:_step_11_reduce_nlos"]}
{"id": "C30", "title": "Ricean power split", "statement": "For a LoS link with K-factor K the scattered paths are scaled by 1/sqrt(K+1) and the direct ray by sqrt(K/(K+1)) is added to the first path only, so the power fractions sum to one; an NLoS link gets no direct ray and is not scaled.", "quantifier": "every K > 0, coefficients, LoS pattern", "why_tests_cant": "continuum", "anchors": ["OpenNTN/channel_coefficients.py:_step_11"]}
{"id": "C31", "title": "Uplink/downlink axis consistency", "statement": "The output of a channel call is indexed receiver first: in uplink the receiver is the BS and the transmitter the UT, in downlink the converse; each link's delays and coefficients stem from the rays, LSPs and angles of that very link, with arrival and departure roles exchanged in uplink.", "quantifier": "every direction, batch, numbers of BSs and UTs, index", "why_tests_cant": "axis mistakes cancel when dimensions are 1, which is how tests run", "anchors": ["OpenNTN/system_level_channel.py:__call__"]}
{"id": "C32", "title": "Path loss and shadow fading scaling", "statement": "Every coefficient of a link is multiplied by the same real factor 10^(-PL/20) sqrt(SF); with both switches disabled the factor is 1; the factor never depends on antenna, path or time.", "quantifier": "every tensor and switch setting", "why_tests_cant": "continuum and all four switch settings", "anchors": ["OpenNTN/system_level_channel.py:_step_12", "OpenNTN/lsp.py:sample_pathloss"]}
{"id": "C33", "title": "Disabling shadow fading removes all shadow fading", "statement": "With enable_shadow_fading=False the link gain is a deterministic function of the topology.", "quantifier": "every topology and random stream", "why_tests_cant": "distinguishing two random sources requires quantifying over streams", "anchors": ["OpenNTN/system_level_channel.py:_step_12", "OpenNTN/utils.py:compute_pathloss_basic"]}
{"id": "C34", "title": "Doppler factor", "statement": "The Doppler factor of every ray has modulus 1, is 1 at time 0 and for zero velocity, obeys f(t1+t2)=f(t1)f(t2), and its frequency never exceeds |v|/lambda plus, for satellites at or above 600 km with Doppler enabled, the satellite term.", "quantifier": "every direction, velocity, time and height", "why_tests_cant": "continuum", "anchors": ["OpenNTN/channel_coefficients.py:_step_11_doppler_matrix"]}
{"id": "C35", "title": "Faraday rotation preserves power", "statement": "The Faraday matrix is orthogonal with determinant 1 for every carrier, its angle is 108/f_GHz^2 degrees, it is applied exactly when the satellite is at or above 600 km.", "quantifier": "every carrier and field vector", "why_tests_cant": "continuum", "anchors": ["OpenNTN/channel_coefficients.py:_step_11_nlos,_step_11_los,_faraday"]}
{"id": "C36", "title": "Orientation rotations", "statement": "The rotation matrix of any orientation is orthogonal with determinant 1, the reverse rotation undoes it, and the local angles computed for a global direction describe the rotated unit vector, lying in [0,pi] x (-pi,pi].", "quantifier": "every orientation and direction including the poles", "why_tests_cant": "continuum and singular directions", "anchors": ["OpenNTN/channel_coefficients.py:_forward_rotation_matrix,_reverse_rotation_matrix,_gcs_to_lcs,_unit_sphere_vector"]}
{"id": "C37", "title": "Polarisation rotation preserves field power", "statement": "Transforming a local field vector to global coordinates keeps the sum of squared components.", "quantifier": "every field, orientation and direction", "why_tests_cant": "continuum", "anchors": ["OpenNTN/channel_coefficients.py:_l2g_response,_compute_psi"]}
{"id": "C38", "title": "Cross-polarisation phase matrix", "statement": "Every entry of the ray phase matrix has modulus 1 on the co-polar and sqrt(1/XPR) on the cross-polar positions, and XPR > 0.", "quantifier": "every phase draw and XPR draw", "why_tests_cant": "continuum", "anchors": ["OpenNTN/channel_coefficients.py:_step_11_phase_matrix,_step_10", "OpenNTN/rays.py:_sample_xpr"]}
{"id": "C39", "title": "Antenna array geometry", "statement": "A panel array has rows x columns x panel rows x panel columns x (1 or 2) elements; positions are centred at the origin, lie in the y-z plane, are pairwise distinct per polarisation with spacing given in wavelengths, and dual-polarised elements share positions pairwise.", "quantifier": "all sizes and spacings", "why_tests_cant": "all sizes; index formulas only break for non-square arrays", "anchors": ["OpenNTN/antenna.py:AntennaPanel,PanelArray"]}
{"id": "C40", "title": "Polarisation index sets partition the elements", "statement": "The index sets of the two polarisations are disjoint, together contain every element exactly once and have equal size.", "quantifier": "all sizes", "why_tests_cant": "all sizes", "anchors": ["OpenNTN/antenna.py:PanelArray.__init__"]}
{"id": "C41", "title": "Polarisation slant", "statement": "'VH' arrays have slants 0 and 90 degrees, 'cross' arrays +-45 degrees, 'V' 0 and 'H' 90 degrees.", "quantifier": "all accepted polarisation settings", "why_tests_cant": "finite but the documented contract is per setting", "anchors": ["OpenNTN/antenna.py:PanelArray.__init__,AntennaElement"]}
{"id": "C42", "title": "Antenna patterns", "statement": "The squared field components sum to the radiation power pattern; the 38.901 gain lies between -22 and 8 dBi with its maximum at boresight; omni is constant 1; the VSAT aperture pattern is 1 at boresight, non-negative and 0 behind the aperture.", "quantifier": "every direction and slant", "why_tests_cant": "continuum", "anchors": ["OpenNTN/antenna.py:AntennaElement"]}
{"id": "C43", "title": "Path loss composition", "statement": "Total path loss is the sum of basic, gas, scintillation and entry loss; free-space loss grows strictly with distance and frequency (20 dB per decade); gas loss is >= 0 and scales as 1/sin(elevation); entry loss is 0; clutter is added on NLoS links only.", "quantifier": "every distance, frequency, elevation and weather", "why_tests_cant": "continuum", "anchors": ["OpenNTN/lsp.py:sample_pathloss", "OpenNTN/utils.py:compute_pathloss_basic,compute_pathloss_gas,compute_pathloss_entry,compute_pathloss_scintilation"]}
{"id": "C44", "title": "Single-sector topologies respect the geometry", "statement": "Generated UTs lie within the square sector of the requested inter-site distance around a beam centre whose slant direction realises the requested elevation and height, at the requested height range, outdoors, moving horizontally at a speed in the requested range.", "quantifier": "every draw and parameter set", "why_tests_cant": "continuum of draws", "anchors": ["OpenNTN/utils.py:gen_single_sector_topology,generate_uts_topology,drop_uts_in_sector"]}
{"id": "C45", "title": "UTs are oriented towards the satellite", "statement": "The orientation given to a generated UT turns its antenna axis towards the satellite: azimuth of the satellite as seen from the UT, elevation the requested elevation angle.", "quantifier": "every UT location", "why_tests_cant": "all quadrants", "anchors": ["OpenNTN/utils.py:generate_uts_topology"]}
{"id": "C46", "title": "Interferer topology generation", "statement": "gen_single_sector_topology_interferers returns a topology.", "quantifier": "every argument set", "why_tests_cant": "a guaranteed failure on all inputs is a universal statement", "anchors": ["OpenNTN/utils.py:gen_single_sector_topology_interferers"]}
{"id": "C47", "title": "Scenario defaults", "statement": "Every parameter the caller specifies is returned unchanged and every unspecified one gets the scenario's default; unknown scenarios are rejected.", "quantifier": "every subset of arguments and every value", "why_tests_cant": "2^n subsets with arbitrary values", "anchors": ["OpenNTN/utils.py:set_3gpp_scenario_parameters"]}
{"id": "C48", "title": "Sector relocation is an isometry", "statement": "Relocating UTs to a sector is a rigid motion of the X-Y plane (heights take no part): it preserves the mutual distances of the UTs of a sector, maps the BS origin to the BS position, and each sector is the previous one turned by 120 degrees about it.", "quantifier": "every UT set, sector and BS position", "why_tests_cant": "continuum", "anchors": ["OpenNTN/utils.py:relocate_uts"]}
{"id": "C49", "title": "Subcarrier and time-frequency grids", "statement": "Subcarrier frequencies are n consecutive multiples of the spacing including 0 with ceil/floor split; grid vectors have the requested length and constant step.", "quantifier": "every size and spacing", "why_tests_cant": "even/odd sizes, all n", "anchors": ["OpenNTN/utils.py:subcarrier_frequencies,time_frequency_vector,time_lag_discrete_time_channel"]}
{"id": "C50", "title": "CIR to OFDM conversion", "statement": "The frequency response is the sum over paths of the coefficient times exp(-j 2 pi f tau); it is linear in the coefficients; with normalisation the mean power over the resource grid per link is 1 unless the response is identically zero.", "quantifier": "every CIR and frequency grid", "why_tests_cant": "continuum, normalisation universal", "anchors": ["OpenNTN/utils.py:cir_to_ofdm_channel"]}
{"id": "C51", "title": "CIR to time-domain conversion", "statement": "Each tap is the sum over paths of the coefficient times sinc(l - W tau); path delays inside the lag window are covered; with normalisation the mean total tap energy is 1 unless all taps vanish.", "quantifier": "every CIR, bandwidth and lag window", "why_tests_cant": "continuum", "anchors": ["OpenNTN/utils.py:cir_to_time_channel,time_lag_discrete_time_channel"]}
{"id": "C52", "title": "Time-domain to OFDM conversion", "statement": "The OFDM response on subcarrier k is the DFT of the taps with lags l_min..l_max at frequency k, per OFDM symbol, when the FFT size is at least the number of taps.", "quantifier": "every tap vector, l_min <= 0, FFT size", "why_tests_cant": "all sizes and shifts", "anchors": ["OpenNTN/utils.py:time_to_ofdm_channel"]}
{"id": "C53", "title": "Correlation matrices", "statement": "Exponential and one-ring correlation matrices are Hermitian Toeplitz with unit diagonal and entries of modulus at most 1; |a|>=1 is rejected. They are positive semidefinite (the exponential ones positive definite), so they can be factorised.", "quantifier": "every parameter and size", "why_tests_cant": "all sizes", "anchors": ["OpenNTN/utils.py:exp_corr_mat,one_ring_corr_mat"]}
{"id": "C54", "title": "TDL models", "statement": "An accepted TDL model has a power delay profile summing to 1 equal to the documented one; LoS models separate the K-factor; delays scale linearly with the delay spread exactly for the scalable models; the mean power of the generated coefficients is that profile; every accepted model name constructs.", "quantifier": "every model name, delay spread, speed", "why_tests_cant": "a model name accepted by the check but without a branch fails only for that name", "anchors": ["OpenNTN/tdl.py:TDL.__init__,_load_parameters,delay_spread"]}
{"id": "C55", "title": "CDL models", "statement": "A CDL model has cluster powers, delays, K-factor and ray angles as documented, with powers summing to 1; the uplink model is the downlink model with the ends exchanged; and calling an accepted model returns a channel.", "quantifier": "every model name and call", "why_tests_cant": "a guaranteed failure on all inputs is a universal statement", "anchors": ["OpenNTN/cdl.py:CDL.__init__,__call__,_load_parameters"]}
{"id": "C56", "title": "Integration script is idempotent and conservative", "statement": "Running the installer hook any number of times on any host file adds the import line at most once, directly after the first line importing tr38901, keeps every other line in order, and does nothing if the anchor is missing.", "quantifier": "every file content, any number of runs", "why_tests_cant": "all file contents, all run counts", "anchors": ["post_install.py:modify_vanilla_sionna", "post_install_legacy.py"]}
{"id": "C57", "title": "Satellite speed and Doppler shift", "statement": "The satellite speed is the circular orbital speed for its height: it satisfies v^2 (R+h) = GM and strictly decreases with height; the satellite Doppler term is bounded by v/c times the carrier.", "quantifier": "every height, elevation and carrier", "why_tests_cant": "continuum", "anchors": ["OpenNTN/utils.py:compute_satellite_speed,compute_stallite_doppler", "OpenNTN/channel_coefficients.py:Topology"]}
{"id": "C58", "title": "Scintillation loss", "statement": "From 6 GHz on the scintillation loss is the tropospheric term of ITU-R P.618: it is non-negative, and the effective path length is 2*hL/(sqrt(sin^2(elev)+2.35e-4)+sin(elev)); below 6 GHz it is a term depending on the carrier alone that decreases with frequency.", "quantifier": "every carrier, elevation, antenna diameter, efficiency and weather", "why_tests_cant": "continuum of inputs; the misplaced parenthesis changes the value everywhere and no reference value is tested", "anchors": ["OpenNTN/utils.py:compute_pathloss_scintillation"]}
{"id": "C59", "title": "Precision option", "statement": "Every scenario can be built and used with precision 'double' exactly as with precision 'single'.", "quantifier": "every configuration", "why_tests_cant": "the option is never exercised with most configurations", "anchors": ["OpenNTN/system_level_scenario.py:SystemLevelScenario.__init__"]}
{"id": "C60", "title": "LSP variates have the requested correlations", "statement": "The Gaussian variates behind the sampled large-scale parameters are linear in the independent draws, have unit variance, the requested spatial covariance between UTs and the requested cross-correlation between parameters of one UT.", "quantifier": "every topology, number of UTs, parameter pair", "why_tests_cant": "statistical tests cannot distinguish small covariance errors nor cover all topologies", "anchors": ["OpenNTN/lsp.py:LSPGenerator.__call__"]}
{"id": "C61", "title": "NLoS departure zenith offset uses degrees", "statement": "For a NLoS link the departure zenith clusters are centred on the LoS departure zenith plus the documented offset atan((35-3.5)/d2D)-atan((35-1.5)/d2D), with both terms in the same unit (degrees).", "quantifier": "every scenario, topology, NLoS link, cluster, ray and draw", "why_tests_cant": "At satellite distances the offset is tiny in either unit, so the output looks plausible; only an exact comparison for all rays shows the unit mix-up.", "anchors": ["OpenNTN/urban_scenario.py: UrbanScenario._compute_lsp_log_mean_std (zod_offset)", "OpenNTN/rays.py: RaysGenerator._zenith_angles"]}
{"id": "C62", "title": "Cross-polarisation power ratios", "statement": "Every ray's XPR is strictly positive and 10 log10(XPR) equals the table's mean plus the table's standard deviation times the normal draw of that ray.", "quantifier": "every scenario, topology, link with usable powers, cluster, ray and draw", "why_tests_cant": "The values are random and depend on 24 tables by environment, band, direction, elevation and link state; samples only check moments for a few of them.", "anchors": ["OpenNTN/rays.py: RaysGenerator._cross_polarization_power_ratios"]}
{"id": "C63", "title": "Antenna array constructor contract", "statement": "A panel array can be built exactly when the polarisation and its type are one of single/V, single/H, dual/VH, dual/cross, the pattern is omni, 38.901, aperture or dlp, explicitly given panel spacings exceed the panel extent, and there is at least one panel; every other setting raises.", "quantifier": "all polarisations, types, patterns, sizes and spacings", "why_tests_cant": "unbounded sizes, real spacings and arbitrary strings", "anchors": ["OpenNTN/antenna.py:PanelArray.__init__,AntennaElement.__init__"]}
{"id": "C64", "title": "Phase of the direct ray", "statement": "The direct ray of a LoS link at distance d carries the propagation phase exp(-j 2 pi d / lambda) of TR 38.901 eq. 7.5-29: moving the link ends d further apart delays the phase.", "quantifier": "every link with a non-vanishing direct ray and every distance", "why_tests_cant": "a wrong sign is invisible to power statistics and needs a symbolic comparison at all distances", "anchors": ["OpenNTN/channel_coefficients.py:_step_11_los"]}
{"id": "C65", "title": "Field transformation is the physical rotation of the antenna", "statement": "The field components returned for a global direction are those of the local field vector carried along by the rotation of the antenna, for every orientation (bearing, downtilt, slant).", "quantifier": "every orientation, field and direction off the antenna axis", "why_tests_cant": "continuum of orientations; only composite rotations reveal sign errors in the polarisation angle", "anchors": ["OpenNTN/channel_coefficients.py:_compute_psi,_l2g_response,_gcs_to_lcs"]}
{"id": "C66", "title": "Ray reciprocity", "statement": "Exchanging transmitter and receiver (arrays, orientations, arrival and departure angles, moving end, cross-polar phases) leaves the coefficient of every scattered ray and of the direct ray unchanged with the antenna indices swapped.", "quantifier": "every link, ray, antenna pair and time", "why_tests_cant": "continuum of links; uplink and downlink code paths are never compared by tests", "anchors": ["OpenNTN/channel_coefficients.py:_step_11_nlos,_step_11_los,_step_11_array_offsets,_step_11_field_matrix,_step_11_doppler_matrix"]}
{"id": "C67", "title": "Paths of a channel output", "statement": "After a successful topology change every link of an outdoor UT has (number of clusters)+4 paths in the channel output, with delays in ascending order starting at zero; no coefficient exists beyond.", "quantifier": "every history, every draw with a K-factor above -63 dB, every link, both directions, cached or fresh parameters", "why_tests_cant": "depends on history, sampled parameters and table columns at once", "anchors": ["OpenNTN/system_level_channel.py:__call__", "OpenNTN/rays.py:RaysGenerator.__call__", "OpenNTN/channel_coefficients.py:_step_11"]}
{"id": "C68", "title": "Co-located user terminals are refused", "statement": "A topology change accepted by the scenario is accepted by the channel exactly if no two UTs of one batch example in the same propagation state (LoS, NLoS, indoor) share their horizontal position; otherwise set_topology raises.", "quantifier": "every object state, topology, batch size and number of UTs", "why_tests_cant": "exact boundary of a numerical factorisation over all topologies", "anchors": ["OpenNTN/system_level_channel.py:set_topology", "OpenNTN/lsp.py:topology_updated_callback,_compute_lsp_spatial_correlation_sqrt"]}
{"id": "C69", "title": "Generated satellites face straight down", "statement": "Every topology returned by the single-sector generator has one satellite per batch example whose antenna axis points vertically down.", "quantifier": "all batch sizes, numbers of UTs, scenarios, parameters and draws", "why_tests_cant": "the orientation angles only mean something through the rotation convention of the coefficient generator", "anchors": ["OpenNTN/utils.py:gen_single_sector_topology", "OpenNTN/channel_coefficients.py:_forward_rotation_matrix"]}
{"id": "C70", "title": "Generated topologies are usable", "statement": "Any channel object, whatever its history, accepts a generated topology whose UTs have distinct positions, and the link distance it then uses is the slant range at the generated satellite height under the scenario's elevation angle.", "quantifier": "all scenarios, object states, generator parameters and draws", "why_tests_cant": "combines the generator, the object history and a numerical factorisation", "anchors": ["OpenNTN/utils.py:gen_single_sector_topology", "OpenNTN/system_level_channel.py:set_topology"]}
{"id": "C71", "title": "TDL Doppler range", "statement": "The Doppler drawn by a TDL model lies between the minimum and maximum terminal speed plus the Doppler shift of a satellite on a circular orbit at the given height and elevation angle.", "quantifier": "every model, carrier frequency, speed range, height and elevation angle", "why_tests_cant": "a unit slip in a closed formula gives plausible small numbers for every input", "anchors": ["OpenNTN/tdl.py:TDL.__init__,_compute_doppler"]}
{"id": "C72", "title": "TDL spatial correlation", "statement": "The coefficients of a TDL model have exactly the requested spatial correlation: the full matrix between antenna pairs, or the receive and transmit matrices on each side.", "quantifier": "every correlation matrix, antenna count, tap and pair of time steps, in the mean over all random phases", "why_tests_cant": "a statement about second moments of the output distribution for every matrix; an example of equal off-diagonals hides a transposed factor", "anchors": ["OpenNTN/tdl.py:TDL.__init__,__call__"]}
{"id": "C73", "title": "Conversions agree", "statement": "For paths delayed by whole samples inside the tap window, converting the impulse response to taps and the taps to the resource grid gives the same channel as converting the impulse response directly at the subcarrier frequencies, for every OFDM symbol.", "quantifier": "all impulse responses, grids, cyclic prefixes, windows, symbols and subcarriers", "why_tests_cant": "equality of two computations for every size and content; a shift by one sample or subcarrier is invisible in power checks", "anchors": ["OpenNTN/utils.py:cir_to_time_channel,time_to_ofdm_channel,cir_to_ofdm_channel,subcarrier_frequencies"]}
{"id": "C74", "title": "TDL delay spread", "statement": "The RMS delay spread of the returned power delay profile is the requested delay spread for the scalable models and the one in the model's name for the others, within the rounding of the tables.", "quantifier": "every model and delay spread", "why_tests_cant": "holds for a continuum of delay spreads and depends on every table entry", "anchors": ["OpenNTN/tdl.py:TDL.delays,mean_powers", "OpenNTN/models/TDL-*.json"]}
{"id": "C75", "title": "TDL and CDL agree", "statement": "For each letter A to D the tapped and the clustered delay line report the same tap powers, delays, number of clusters and K-factor.", "quantifier": "every letter, delay spread, antenna configuration, direction and speed", "why_tests_cant": "relates two classes and eight files for every configuration", "anchors": ["OpenNTN/tdl.py:TDL", "OpenNTN/cdl.py:CDL"]}
{"id": "C76", "title": "Call forms", "statement": "Calling the channel with (batch_size, num_time_samples, sampling_frequency) gives exactly the response of (num_time_samples, sampling_frequency); the batch size argument is ignored and the response has num_time_samples time steps.", "quantifier": "every channel state, every draw, every batch size, number of time samples and sampling frequency", "why_tests_cant": "a swapped argument shows up only through a wrong axis length or time scale in one of the two forms", "anchors": ["OpenNTN/system_level_channel.py:SystemLevelChannel.__call__"]}
{"id": "C77", "title": "Outdoor-to-indoor penetration loss", "statement": "On the topology last set, the penetration loss is exactly 0 dB for outdoor UTs and, for indoor UTs, wall loss + 0.5 dB per indoor metre + a normal part of 4.4 dB (low-loss) or 6.5 dB (high-loss buildings); the wall loss is 5 dB plus the loss of the two-material wall of TR 38.901, lies between the two material losses plus 5 dB, grows with frequency, and is larger for high-loss buildings.", "quantifier": "every scenario, every updating call, every normal draw, every link, every frequency", "why_tests_cant": "the functions are not reached by any public call and the claim ranges over all draws and frequencies", "anchors": ["OpenNTN/lsp.py:LSPGenerator._o2i_low_loss", "OpenNTN/lsp.py:LSPGenerator._o2i_high_loss"]}
{"id": "C78", "title": "Readable properties follow the topology", "statement": "Before the first accepted topology the input properties are None and derived properties raise; once one updating call succeeded every documented property of the scenario is readable, whatever calls follow, including failing ones; inputs read back the last value given in a call that was not rejected, sizes and heights are those of the locations, constructor arguments read back unchanged, and the free-space loss is the free-space part of the basic path loss.", "quantifier": "every scenario, every finite history of set_topology calls, every property", "why_tests_cant": "ranges over all call histories including calls that fail half way", "anchors": ["OpenNTN/system_level_scenario.py:SystemLevelScenario"]}
{"id": "C79", "title": "Readable properties of arrays and panels", "statement": "A panel array reports its arguments with defaults filled in, num_ant = num_panels * num_panels_ant = number of positions, index lists of the two polarisations that partition the antennas, positions per polarisation equal to the positions at those indices (and equal to each other for dual arrays); properties of the second polarisation raise for single-polarised arrays. A panel accepts exactly 'single' and 'dual' and reports rows, columns, spacings, polarization and a centred grid.", "quantifier": "every argument combination, any number of rows, columns and panels", "why_tests_cant": "all sizes and spacings at once", "anchors": ["OpenNTN/antenna.py:PanelArray", "OpenNTN/antenna.py:AntennaPanel"]}
{"id": "C80", "title": "Constructing a channel", "statement": "DenseUrban, Urban and SubUrban construct exactly when Python accepts the call (no surplus, unknown, repeated or missing argument; otherwise TypeError) and the arguments in force, given by position, by name or by default, are a supported configuration (otherwise AssertionError). The way a call is written does not matter. Every argument reads back unchanged, the transmitting array is the terminals' in uplink and the satellite's in downlink. The defaults are the documented ones and the documented example call works. A scenario class constructed directly with the same arguments gives the scenario of the channel object, with the same defaults and the same errors.", "quantifier": "all three classes, every list of positional and keyword arguments", "why_tests_cant": "all splits of twelve arguments into positional, keyword and default, and all values", "anchors": ["OpenNTN/dense_urban.py:DenseUrban.__init__", "OpenNTN/urban.py:Urban.__init__", "OpenNTN/sub_urban.py:SubUrban.__init__", "OpenNTN/system_level_scenario.py:SystemLevelScenario.__init__", "OpenNTN/system_level_channel.py:SystemLevelChannel.__init__", "OpenNTN/dense_urban_scenario.py:DenseUrbanScenario.__init__", "OpenNTN/urban_scenario.py:UrbanScenario.__init__", "OpenNTN/sub_urban_scenario.py:SubUrbanScenario.__init__"]}
{"id": "C81", "title": "Properties and coupling of the delay lines", "statement": "After any sequence of assignments to delay_spread the readable properties of a TDL or CDL object are the documented profile: number of clusters, LoS flag, powers, K-factor (AssertionError without LoS), height and elevation as given, delay spread the last one assigned (scalable models) or the one in the model's name, delays scaled accordingly; no other name is readable. The CDL's random coupling rearranges the rays of each cluster and the speed of the moving end is the one drawn.", "quantifier": "every accepted object, every finite list of assignments, every name, every draw and sorting function", "why_tests_cant": "unbounded assignment histories and all draws", "anchors": ["OpenNTN/tdl.py:TDL", "OpenNTN/cdl.py:CDL"]}
{"id": "C82", "title": "Coefficient of one ray between two antennas", "statement": "The contribution of a scattered ray to the coefficient of receive antenna u and transmit antenna s is sqrt(P/20) times the product of receive field, polarisation matrix (random phases, cross-polar terms weakened by sqrt(1/XPR)), Faraday-rotated transmit field, the phase advances of both antennas at their rotated positions and the Doppler rotation (TR 38.901 7.5-22); the direct ray is the same with polarisation matrix diag(1,-1) and the distance phase (7.5-29). The field of an antenna is that of the element of its own polarisation, carried along by the rotation of its array, and is unique.", "quantifier": "every array, every antenna pair, orientation, direction off the array's vertical axis, power, phase, height and time", "why_tests_cant": "continuum of directions and orientations; a wrong element, sign or matrix order leaves powers and shapes unchanged", "anchors": ["OpenNTN/channel_coefficients.py:ChannelCoefficientsGenerator._step_11_field_matrix", "OpenNTN/channel_coefficients.py:ChannelCoefficientsGenerator._step_11_nlos", "OpenNTN/channel_coefficients.py:ChannelCoefficientsGenerator._step_11_los"]}
{"id": "C83", "title": "Means and correlations of the coefficients over the random phases", "statement": "Averaged over independent uniform initial phases, the coefficient of a path is the direct ray times sqrt(K/(K+1)) for the first path of a LoS link and zero otherwise; different paths are uncorrelated; the correlation of two antenna pairs at two times within one path is (times 1/(K+1) for LoS) the sum over the rays of the path of P/20, the product of the fields with cross-polar terms divided by XPR, the array phase differences and the Doppler rotation. The mean total power of an antenna pair is the Ricean mixture of the direct power and the field-weighted cluster powers, with or without sub-clusters.", "quantifier": "every array pair, any number of clusters, every ray table with non-negative powers and positive XPR, orientation, velocity, height, sampling rate and phase distribution with uncorrelated zero-mean phasors", "why_tests_cant": "expectations over random phases can only be estimated by sampling; all antenna pairs, lags and ray tables at once", "anchors": ["OpenNTN/channel_coefficients.py:ChannelCoefficientsGenerator.__call__", "OpenNTN/channel_coefficients.py:ChannelCoefficientsGenerator._step_11"]}
{"id": "C84", "title": "Mean received power of a link of the channel object", "statement": "After a successful set_topology, every call of the channel model succeeds whatever the initial phases, and for an outdoor UT (LoS K-factor above 10^-6.3) the power an antenna pair receives over all paths, averaged over independent uniform initial phases of the rays of that link, is 10^(-path loss/10) (if path loss is enabled) times the shadow fading (if enabled) times the Ricean mixture of the direct power and the field-weighted cluster powers, for uplink and downlink. Between vertical omnidirectional antennas turned only about the vertical the mean is exactly path gain times shadow fading below 600 km; from 600 km on it is reduced to cos^2 plus the XPR-weighted sin^2 share of the Faraday rotation angle.", "quantifier": "every accepted configuration, every history of calls, every topology and draw of large-scale parameters and rays, every array pair, batch entry, satellite, UT, antenna pair and time; the phases of all other links arbitrary", "why_tests_cant": "an expectation over random phases for all configurations, topologies and remaining draws at once", "anchors": ["OpenNTN/system_level_channel.py:SystemLevelChannel.__call__", "OpenNTN/channel_coefficients.py:ChannelCoefficientsGenerator.__call__", "OpenNTN/rays.py:RaysGenerator.__call__"]}
{"id": "C85", "title": "Dropping UTs over a sector or a whole cell", "statement": "generate_uts_topology accepts exactly the drop areas 'sector' and 'cell'. In a sector drop every UT lies within half the inter-site distance of the beam centre, moved to its cell centre. A cell drop with the same draws turns each UT by 120 degrees times its own drawn sector about its own cell centre and leaves heights, velocities and indoor states unchanged. The axis of a UT has the requested elevation and is computed from the final position: towards the origin if x >= 0, away from it if x < 0, NaN at the origin.", "quantifier": "every batch size, number of UTs, cell centre per UT, parameter set with 0 < elevation <= 90, and all draws", "why_tests_cant": "continuum of draws and cell centres; the single-sector generator never uses 'cell'", "anchors": ["OpenNTN/utils.py:generate_uts_topology", "OpenNTN/utils.py:relocate_uts", "OpenNTN/utils.py:drop_uts_in_sector"]}
{"id": "C86", "title": "Computed gain and directivity of an element", "statement": "The gain an antenna element computes for itself is the nominal peak gain of its pattern: 8 dB for '38.901', 0 dB for 'omni', 'aperture' and 'dlp'. The directivity is that gain relative to the power averaged over the sphere on a grid of one degree; it is never more than 10 log10(361/360) dB below an isotropic radiator, and for 'omni' it is 10 log10(360/361 * tan(pi/360)/(pi/360)) dB, slightly negative because azimuths -180 and 180 are both counted.", "quantifier": "every pattern and every slant angle", "why_tests_cant": "the slant angle is real-valued, and the value is a sum over 65341 grid points whose closed form only a proof gives", "anchors": ["OpenNTN/antenna.py:AntennaElement._compute_gain", "OpenNTN/antenna.py:AntennaElement.field"]}
{"id": "C87", "title": "Line-of-sight phase in finite precision", "statement": "The phase factor of the line-of-sight component that the channel coefficient generator computes in the chosen floating-point precision agrees with exp(j 2 pi d f_c / c) to within 10^-4 for every satellite distance d up to beyond geostationary orbit.", "quantifier": "for every supported carrier frequency, every distance and every precision (24 to 53 significant bits)", "why_tests_cant": "A test looks at a few distances and has no exact reference; the claim is about rounding errors for all real distances and carriers.", "anchors": ["OpenNTN/channel_coefficients.py:ChannelCoefficientsGenerator.__init__", "OpenNTN/channel_coefficients.py:ChannelCoefficientsGenerator._step_11_los", "OpenNTN/system_level_scenario.py:SystemLevelScenario.__init__"]}
{"id": "C88", "title": "Energy of the taps of a discrete-time channel", "statement": "For every channel impulse response, bandwidth and range of lags, the taps cir_to_time_channel computes for an antenna pair carry at most the power of the frequency response computed by cir_to_ofdm_channel, averaged over the band; they carry exactly that power when all delays are whole numbers of samples inside the window. A single path, whatever its delay, never gains energy.", "quantifier": "for all coefficients, delays, bandwidths, numbers of paths and ranges of lags", "why_tests_cant": "It is an inequality between an infinite-dimensional average and sums of any length; tests sample some delays and windows.", "anchors": ["OpenNTN/utils.py:cir_to_time_channel", "OpenNTN/utils.py:cir_to_ofdm_channel"]}
{"id": "C89", "title": "Mean power per subcarrier and frequency correlation of a link", "statement": "Take the coefficients and delays a call of the channel model returns for an outdoor UT (LoS K-factor above 10^-6.3) and convert them with cir_to_ofdm_channel without normalization. Averaged over independent uniform initial phases of the rays of that link, the power of every antenna pair on every subcarrier and at every time is 10^(-path loss/10) (if path loss is enabled) times the shadow fading (if enabled) times the Ricean mixture of direct and scattered power: it does not depend on the subcarrier. The correlation between two subcarriers and two times depends on the frequencies through their difference only: it is the sum over the paths of the correlation of that path over time, turned by frequency difference times delay. The delays do not depend on the phases, are sorted and start at zero.", "quantifier": "for every supported configuration, every history ending in a settled topology, every subcarrier grid, all antenna pairs, times and draws other than the phases, uplink and downlink", "why_tests_cant": "A mean over a continuum of phases can only be estimated by a test, with an error that hides a dependence on the subcarrier, and only for a few topologies and grids.", "anchors": ["OpenNTN/system_level_channel.py:SystemLevelChannel.__call__", "OpenNTN/channel_coefficients.py:ChannelCoefficientsGenerator.__call__", "OpenNTN/utils.py:cir_to_ofdm_channel"]}
{"id": "C90", "title": "Isolation of batch examples and of later UTs", "statement": "The coefficients and delays the channel model returns for a UT depend only on the topology, the state and the random draws of its own batch example and of the UTs listed up to it (and on the altitude of the satellite of the first example, which the code uses for every example, see C15). In particular an example cut out of a batch and reduced to its first m UTs is accepted by set_topology whenever the batch was, and with the same draws gives these UTs exactly the coefficients and delays they have in the batch; appending UTs or examples never changes earlier ones.", "quantifier": "for every supported configuration, every batch size and number of UTs, every position of the example, every prefix of its UTs, every history leading to the topology, all draws, with LSPs cached or redrawn, uplink and downlink", "why_tests_cant": "It is a statement about pairs of executions with independent sizes and arbitrary contents of the other examples; a test compares a few pairs, and the random draws of two runs of different shapes cannot be made equal from outside.", "anchors": ["OpenNTN/system_level_channel.py:SystemLevelChannel.__call__", "OpenNTN/system_level_channel.py:SystemLevelChannel.set_topology", "OpenNTN/lsp.py:LSPGenerator.__call__", "OpenNTN/rays.py:RaysGenerator.__call__", "OpenNTN/system_level_scenario.py:SystemLevelScenario.set_topology"]}
{"id": "C91", "title": "Turning and shifting the scene", "statement": "Turning all positions, velocities and bearings of a topology about a vertical axis by any angle and shifting all positions horizontally changes nothing: the moved topology is accepted by set_topology whenever the original is, and with the same random draws every coefficient and every delay of every UT is exactly the same, provided the UT is not straight below its satellite (for a shift without a turn this proviso is not needed). Straight below the satellite the azimuth is undefined and the code uses 0 and 180 degrees, which do not turn.", "quantifier": "for every supported configuration, every batch, every number of UTs, every angle and shift, every history leading to the two topologies, all draws, all antenna arrays, uplink and downlink, all samples", "why_tests_cant": "It relates pairs of executions over a continuum of motions with equal random draws; floating-point tests only compare a few motions up to a tolerance and cannot fix the draws of two calls.", "anchors": ["OpenNTN/system_level_channel.py:SystemLevelChannel.__call__", "OpenNTN/system_level_channel.py:SystemLevelChannel.set_topology", "OpenNTN/channel_coefficients.py:ChannelCoefficientsGenerator.__call__", "OpenNTN/rays.py:RaysGenerator.__call__", "OpenNTN/system_level_scenario.py:SystemLevelScenario.set_topology"]}
{"id": "C92", "title": "Evolution over time", "statement": "The coefficients of a link depend on time only through the vector by which the UT has moved and the distance by which the satellite has come closer: for two calls with the same draws and topologies that may differ in velocities, sampling frequency, direction of the orbit and the Doppler switch, at sample times by which the UT has moved by the same vector all coefficients of the link differ by the one phase 2 pi fc (closer)/c, and the delays are equal. Hence the first sample does not depend on velocities or Doppler; sampling k times as fast reproduces the old samples exactly; all coefficients of a UT at rest turn together at the satellite's Doppler frequency, and are constant in time if Doppler is disabled or the satellite is below 600 km; enabling satellite Doppler multiplies all coefficients of a link at a sample by one phase.", "quantifier": "for every supported configuration, every topology and history, all velocities, sampling frequencies, sample indices and draws, all antennas and paths, uplink and downlink", "why_tests_cant": "It compares pairs of calls with equal random draws over continuous velocities, frequencies and unbounded sample indices.", "anchors": ["OpenNTN/system_level_channel.py:SystemLevelChannel.__call__", "OpenNTN/channel_coefficients.py:ChannelCoefficientsGenerator.__call__", "OpenNTN/channel_coefficients.py:ChannelCoefficientsGenerator._step_11_doppler_matrix", "OpenNTN/channel_coefficients.py:Topology.__init__"]}
{"id": "C93", "title": "Rain and cloud attenuation can be computed", "statement": "After a topology has been set, the scenario's routine for the additional path loss (rain and cloud attenuation) returns without an exception and stores an attenuation for every link.", "quantifier": "for every supported scenario, carrier, elevation angle and direction, every latitude, every non-zero temperature and every satellite position", "why_tests_cant": "No test calls the routine, and its call in set_topology is commented out; whether it can succeed depends on sums of exponentials over two continuous carrier bands, all elevations and all latitudes, of which tests can only sample points.", "anchors": ["OpenNTN/utils.py:compute_pathloss_additional", "OpenNTN/urban_scenario.py:UrbanScenario._compute_pathloss_additional", "OpenNTN/sub_urban_scenario.py:SubUrbanScenario._compute_pathloss_additional", "OpenNTN/dense_urban_scenario.py:DenseUrbanScenario._compute_pathloss_additional", "OpenNTN/system_level_scenario.py:SystemLevelScenario.set_topology"]}
{"id": "C94", "title": "Accuracy of the satellite distance", "statement": "The three-dimensional distance that set_topology computes in single precision for a link equals the exact distance to a satellite of that height seen at that elevation angle from a spherical Earth, up to a relative error of 10^-5 (hence the free-space path loss is right to within 0.00011 dB) and up to a fraction of a carrier wavelength.", "quantifier": "for every elevation angle from 10 to 90 degrees and every satellite height from 500 km on", "why_tests_cant": "The rounding errors of eleven floating point operations partly cancel in a difference of two large numbers; a test compares a few distances with a tolerance and sees neither the worst case nor the grid the results lie on.", "anchors": ["OpenNTN/system_level_scenario.py:SystemLevelScenario._compute_distance_2d_3d_and_angles"]}
{"id": "C95", "title": "Accuracy of the satellite's Doppler rotation", "statement": "At every sample time of a call the phase by which the motion of the satellite has turned the coefficients is, in single precision, within 0.01 radian of the exact phase 2 pi fc v t / c of the distance the satellite has moved. (It is within 20 units in the last place of it in every precision.)", "quantifier": "for every supported carrier, satellite height from 600 km on, elevation angle, orbit direction, sampling frequency and sample number", "why_tests_cant": "The error grows with the sample number; tests run a few samples, for which it is invisible, and the bound for the first millisecond has to hold for a continuum of carriers, speeds and sampling frequencies.", "anchors": ["OpenNTN/channel_coefficients.py:ChannelCoefficientsGenerator._step_11_doppler_matrix", "OpenNTN/channel_coefficients.py:ChannelCoefficientsGenerator.__call__"]}
{"id": "C96", "title": "Installation scripts", "statement": "After a run of the installation script on a machine with the host package, the host asks for the module exactly once and the module is found below the host's channel models; no file besides the host's file, the module's entry and the package is changed; running the script again changes nothing; and when a step fails the host is left usable.", "quantifier": "every file system, every location of host and package, every outcome of pip and of the download, any number of runs, both scripts", "why_tests_cant": "all directory layouts, all failure combinations and all run counts; tests never run the scripts", "anchors": ["install.sh", "install_legacy.sh", "post_install.py:modify_vanilla_sionna"]}
{"id": "C97", "title": "Reported 2D and 3D distances fit together", "statement": "For every link of a topology made by the generator and given to a channel of the same elevation angle, the reported distance_2d (in the X-Y plane) is at most the reported distance_3d, and for a UT at the beam centre on the ground distance_3d is the distance between the two positions.", "quantifier": "every scenario, batch size, number of UTs, elevation angle, satellite height, inter-site distance and all random draws", "why_tests_cant": "the relation depends on three continuous parameters and on the draws; a test samples a few elevations and never compares the two distances", "anchors": ["OpenNTN/system_level_scenario.py:SystemLevelScenario._compute_distance_2d_3d_and_angles", "OpenNTN/utils.py:generate_uts_topology", "OpenNTN/utils.py:gen_single_sector_topology"]}
{"id": "C98", "title": "Generated UT positions survive single precision", "statement": "The UT positions a generated topology stores in the default single precision are within 0.25 m of the drawn ones along each axis, distances between UTs within 0.75 m, so that UTs drawn farther apart than that stay apart and the topology is accepted by set_topology.", "quantifier": "every scenario, satellite height, elevation angle, inter-site distance and all draws", "why_tests_cant": "the spacing of floats depends on the distance of the beam from the origin; collisions appear only for particular draws at large distances, which random tests near the default orbit never meet", "anchors": ["OpenNTN/utils.py:drop_uts_in_sector", "OpenNTN/utils.py:gen_single_sector_topology", "OpenNTN/system_level_channel.py:SystemLevelChannel.set_topology"]}
{"id": "C99", "title": "The ingredients of the rain and cloud attenuation follow the ITU recommendations", "statement": "In the routine for the additional path loss, the cloud part is the columnar liquid water content times the Rayleigh absorption of double-Debye water at the carrier and temperature given with the topology, divided by the sine of the elevation angle; it is positive and grows as the elevation angle falls. The specific attenuation by rain is that of ITU-R P.838-3 for circular polarisation at 40 mm/h, whatever rain rate is configured.", "quantifier": "every supported scenario, every weather with a temperature between 216 K and 990 K, every elevation angle in (0, 90] degrees", "why_tests_cant": "the routine raises before it reports any value (C93), so the intermediate values cannot be observed by running it; the formulas are continuous in carrier, temperature and elevation", "anchors": ["OpenNTN/utils.py:compute_pathloss_additional", "OpenNTN/urban_scenario.py:UrbanScenario._compute_pathloss_additional"]}
{"id": "C100", "title": "The picture of a topology shows the topology", "statement": "show_topology draws every station and every UT of the chosen batch example once, at its position in one common unit and numbered, UTs as points of the class of their LoS state, and at every node the three axes of its local coordinate system as visible lines of a tenth of the picture's size; before a topology is set, or with an index out of range, it raises.", "quantifier": "every supported scenario, every accepted topology, every batch and station index", "why_tests_cant": "plots are only inspected by eye; which terminals get a point, in which unit and whether axes are visible depends on coordinates, indoor states and the extent of the scene", "anchors": ["OpenNTN/system_level_channel.py:SystemLevelChannel.show_topology"]}
{"id": "C101", "title": "The pictures of arrays show the antennas", "statement": "The pictures of panels and panel arrays show every antenna once at its place in the y-z plane, number those of the first polarisation from 1 in the order of the array, and mark each polarisation by a stroke in the direction of its slant.", "quantifier": "every panel and every array that can be constructed, of any size, spacing and polarisation", "why_tests_cant": "plots are only inspected by eye; arrays have unboundedly many sizes", "anchors": ["OpenNTN/antenna.py:PanelArray.show", "OpenNTN/antenna.py:AntennaPanel.show"]}
{"id": "C102", "title": "Cluster delays and powers are accurate in finite precision", "statement": "Computed with at least 24 significant bits, and with the powers added up in any order, the cluster delays of an outdoor link start at exactly 0, are sorted, and differ from the exact ones before scaling by at most 138 roundings of rTau times the delay spread; every cluster power differs from the exact one by at most 1600 roundings (one part in ten thousand in single precision), unused clusters have power exactly 0, and the powers add up to 1 within 8 roundings.", "quantifier": "every supported scenario and accepted topology, every outdoor link with a delay spread up to 10 ms, all draws of the ranges TensorFlow produces, every precision from single on, every order of summation", "why_tests_cant": "a test compares a few random draws with a loose tolerance; the worst case over all draws and summation orders needs an error analysis through sorting and normalisation", "anchors": ["OpenNTN/rays.py:RaysGenerator._cluster_delays", "OpenNTN/rays.py:RaysGenerator._cluster_powers"]}
{"id": "C103", "title": "A refused topology is not used", "statement": "If set_topology of a channel model raises, later channel calls give what they gave before the call; and a topology given in full afterwards works as in a new object. (The second part and missing arguments hold; the code violates the first for a wrong number of stations and for coinciding UTs.)", "quantifier": "every supported scenario, every history of topology changes, refusals and channel calls, every refused call and all draws", "why_tests_cant": "tests do not use an object again after an exception; the space of histories with failures in the middle is unbounded and the mixed state returns plausible numbers", "anchors": ["OpenNTN/system_level_channel.py:SystemLevelChannel.set_topology", "OpenNTN/system_level_channel.py:SystemLevelChannel.__call__", "OpenNTN/lsp.py:LSPGenerator.topology_updated_callback", "OpenNTN/system_level_scenario.py:SystemLevelScenario.set_topology"]}
{"id": "C104", "title": "The numbering of the UTs does not matter", "statement": "If UTs are picked out of an accepted topology and passed in any order, the new topology is accepted; the channel of each UT ranges over the same coefficients and delays as under its old number, and has the same distribution. (The range and the distribution of each single large scale parameter hold; the joint distribution of two parameters of one UT depends on its number.)", "quantifier": "every supported scenario, batch, topology, selection and order of UTs, and all draws", "why_tests_cant": "the number of orders grows factorially; the affected quantity is a correlation between two random parameters, invisible in a single draw", "anchors": ["OpenNTN/lsp.py:LSPGenerator.__call__", "OpenNTN/lsp.py:LSPGenerator.topology_updated_callback", "OpenNTN/system_level_channel.py:SystemLevelChannel.set_topology", "OpenNTN/system_level_channel.py:SystemLevelChannel.__call__"]}
{"id": "C105", "title": "The LoS angles in finite precision", "statement": "In single and in double precision the reported LoS angles of every link lie in [0,360) and agree up to full turns with the exact ones to 7000 units of rounding (less than a thousandth of a degree in single precision), and the reported departure angles give the direction from the satellite to the UT to 250 units of rounding of the distance. (Accuracy holds; the value 360 is reported for UTs just below the x axis through the satellite.)", "quantifier": "every precision between 24 and 53 bits, every position of the UT and of the satellite", "why_tests_cant": "the angles reported as 360 belong to a sector narrower than 4e-7 radians, which random placement does not meet", "anchors": ["OpenNTN/system_level_scenario.py:SystemLevelScenario._compute_distance_2d_3d_and_angles", "OpenNTN/utils.py:wrap_angle_0_360", "OpenNTN/utils.py:rad_2_deg"]}
{"id": "C106", "title": "The pictures of an antenna element show its radiated power", "statement": "show draws, for every pattern and slant, a vertical and a horizontal cut whose points are the radiated power in dB, near every angle and exactly in the main direction, and a surface that has, near every direction, a point in its direction at the distance of the radiated power, for an aperture in dB. (True of the cuts and of the surfaces of 'omni', '38.901' and 'dlp'; the distances for an aperture are in nepers.)", "quantifier": "every pattern, every slant, every direction, every array", "why_tests_cant": "tests of plotting functions look at the absence of exceptions; the scale of a logarithm is not visible in the shape", "anchors": ["OpenNTN/antenna.py:AntennaElement.show", "OpenNTN/antenna.py:PanelArray.show_element_radiation_pattern", "OpenNTN/antenna.py:AntennaElement.field"]}
{"id": "C107", "title": "The random coupling of rays is fair", "statement": "Within each cluster the order in which the rays of each kind of angle (arrival, departure, azimuth, zenith) are coupled depends on the twenty random numbers of that cluster and kind only, the same for all UTs; of the ways to deal twenty distinct values to the rays exactly one yields each order, so that exchangeable draws make all orders equally likely, and every combination of orders over clusters and kinds is reached with delays, powers and XPRs unchanged.", "quantifier": "every scenario, topology, link, cluster, kind of angle, stock of values and order; every sorter", "why_tests_cant": "there are 20! orders per cluster and kind; a biased shuffle passes any test that looks for a permutation", "anchors": ["OpenNTN/rays.py:RaysGenerator._shuffle_angles", "OpenNTN/rays.py:RaysGenerator._random_coupling"]}
{"id": "C108", "title": "A satellite sees each link in one direction", "statement": "For a satellite at 160 km or above the scenarios do away with the angular spread at the satellite: all rays of all clusters of a link have one direction at the satellite, on a LoS link that of the UT, so antennas of the satellite with the same element differ on every path by a steering phase only and receive or send the same power. (True downlink outside the Urban environment; false for the azimuths in the Urban environment and for the zenith angles in the uplink, where the spread within a cluster stays.)", "quantifier": "every scenario, topology, history of the channel object, draw, cluster, ray, antenna, path and time", "why_tests_cant": "a test sees a few links and draws; that two antennas never differ by more than a phase is a statement about all of them, and the remaining spread is a fraction of a degree", "anchors": ["OpenNTN/rays.py:RaysGenerator._azimuth_angles", "OpenNTN/rays.py:RaysGenerator._zenith_angles", "OpenNTN/channel_coefficients.py:ChannelCoefficientsGenerator._step_11_array_offsets", "OpenNTN/system_level_channel.py:SystemLevelChannel.__call__"]}
{"id": "C109", "title": "The power budget of a link is accurate in finite precision", "statement": "Computed in single (or any higher) precision, the free-space loss, the sum of the losses of a link in dB and the factor applied to its coefficients agree with their exact values: the total loss of a satellite link is off by at most 0.0004 dB including the error of its computed distance, the amplitude by at most 0.004 %; and the formula with the constant 32.45 is the law of Friis up to 0.006 dB. Rounding never reverses an order: a longer link, a higher carrier or, under the same elevation angle, a higher satellite never has a smaller computed loss or a larger computed amplitude.", "quantifier": "every precision from 24 to 53 bits, supported carrier, distance from 1 m to 10^8 m (elevation angle from 10 to 90 degrees, height from 500 km on), LoS state, shadow fading up to 100 dB, clutter, gas and scintillation loss up to 100 dB each, shadow fading sample", "why_tests_cant": "a test compares a few links with a reference computed by the same formula in the same precision, and cannot rule out cancellation elsewhere in the range", "anchors": ["OpenNTN/utils.py:compute_pathloss_basic", "OpenNTN/lsp.py:LSPGenerator.sample_pathloss", "OpenNTN/system_level_channel.py:SystemLevelChannel._step_12"]}
{"id": "C110", "title": "LoS states occur with the tabulated probability, independently", "statement": "When the LoS state is not forced, equally likely equally spaced random numbers make every outdoor link LoS with the probability tabulated for environment and elevation angle, up to the spacing of the numbers, and the states of different links, UTs and batch examples are independent: the number of draws giving a pattern of states is the product of the numbers for its links. With the same draws a link that is LoS at one elevation angle is LoS at every higher one.", "quantifier": "every constructed scenario, history, topology, number of equally spaced values, set of outdoor links and pattern of states; every pair of elevation angles", "why_tests_cant": "a test estimates a frequency from samples and sees neither a small bias nor a dependence between distant links", "anchors": ["OpenNTN/system_level_scenario.py:SystemLevelScenario._sample_los", "OpenNTN/utils.py:sample_bernoulli", "OpenNTN/system_level_scenario.py:SystemLevelScenario.set_topology"]}
{"id": "C111", "title": "UTs are dropped uniformly, each batch example anew", "statement": "A generated topology drops every UT uniformly over the square sector around the beam centre and independently of the other UTs, gives it a height, speed and heading uniform over their ranges, draws the beam centre anew for each batch example, and all directions of the beam centre are equally likely. (True of the drop within the square and of the motion; false of the batch, whose examples share one beam centre, and of the directions, which are confined to one quadrant and not equally likely there.)", "quantifier": "every batch size, number of UTs, scenario, parameter set and draw; every square of the plane", "why_tests_cant": "a test with one batch looks at positions of a single beam; that examples of all batches share it and which directions occur are statements about all draws", "anchors": ["OpenNTN/utils.py:drop_uts_in_sector", "OpenNTN/utils.py:generate_uts_topology", "OpenNTN/utils.py:gen_single_sector_topology"]}
