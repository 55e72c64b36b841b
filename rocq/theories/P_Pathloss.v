(* Properties C43, C57, C58: path loss composition, satellite speed and Doppler, scintillation. *)
From Coq Require Import Reals String List Bool ZArith Lra Lia.
From Verif Require Import M_Base M_Params S_Config M_Geometry M_Pathloss M_Scenario M_Lsp S_Topology S_Pathloss
  L_Pathloss L_Scenario L_Fresh L_Topology L_Loss S_Gas L_Gas.
Import ListNotations.
Open Scope string_scope.
Open Scope list_scope.
Open Scope R_scope.

(* C43: after any updating call the path loss of every link is free-space loss plus the documented shadow
   fading (and clutter loss if NLoS) plus gas and scintillation losses. *)
Theorem C43_pathloss_is_the_documented_sum :
  forall sc st a dr st',
    constructed sc -> set_topology sc st a dr = (st', Ok true) ->
  exists los g f sl sn cl,
    s_los st' = Some los /\ s_geo st' = Some g /\ sample_pathloss st' = Ok f /\
    let doc := documented_value (sc_env sc) (sc_fc sc) (sc_dir sc) (sc_elev sc) in
    doc true "sigmaSF" (Fin sl) /\ doc false "sigmaSF" (Fin sn) /\ doc false "CL" (Fin cl) /\
    0 <= sl /\ 0 <= sn /\ 0 <= cl /\
    forall b s u, f b s u =
      free_space (sc_fc sc) (g_d3d g b s u)
      + (if los b s u then sl * dr_z_los dr b s u else sn * dr_z_nlos dr b s u + cl)
      + pl_gas (set_weather (a_weather a)) (sc_fc sc) (sc_elev sc)
      + pl_scint (set_weather (a_weather a)) (sc_fc sc) (sc_elev sc).
Proof. exact pathloss_composed. Qed.
Print Assumptions C43_pathloss_is_the_documented_sum.

Example C43_example : exists sc st, constructed sc /\
  set_topology sc (init_state sc) (w_args no_weather) no_draws = (st, Ok true).
Proof.
  destruct example_constructed as (sc & Hc & _). exists sc.
  destruct (first_call sc (init_state sc) no_weather no_draws (constructed_accepted sc Hc)) as [st E].
  exists st. split; assumption.
Qed.

(* C43: the free-space term grows with distance and carrier, 20 dB per decade of either. *)
Theorem C43_free_space_laws :
  forall fc d,
    0 < fc -> 0 < d ->
  (forall d', d < d' -> free_space fc d < free_space fc d') /\
  (forall fc', fc < fc' -> free_space fc d < free_space fc' d) /\
  free_space fc (10 * d) = free_space fc d + 20 /\ free_space (10 * fc) d = free_space fc d + 20.
Proof. exact free_space_laws. Qed.
Print Assumptions C43_free_space_laws.

Example C43_free_space_example : free_space (10 ^ 9) 1 = 32.45.
Proof. unfold free_space. replace (10 ^ 9 / 10 ^ 9) with 1 by field. rewrite ln_1. lra. Qed.

(* C43: the gas loss is positive and scales with the inverse sine of the elevation. *)
Theorem C43_gas_loss :
  forall w fc e,
    0 < w_temperature w -> 0 < w_pressure w -> 0 <= w_vapor w ->
  in_S_band fc \/ in_Ka_band fc -> 10 <= e <= 90 ->
  0 < pl_gas w fc e /\ pl_gas w fc e * sin (deg_2_rad e) = pl_gas w fc 90.
Proof. exact pl_gas_spec. Qed.
Print Assumptions C43_gas_loss.

Example C43_gas_example : exists w, w = set_weather no_weather /\
  0 < w_temperature w /\ 0 < w_pressure w /\ 0 <= w_vapor w /\ in_Ka_band 20e9.
Proof. eexists. split; [reflexivity|]. cbn. unfold in_Ka_band. lra. Qed.

(* C43: the gas loss is the tabulated dry-air and water-vapour attenuation over the sine of the elevation. *)
Theorem C43_gas_formula :
  forall w fc e,
  0 < w_temperature w -> 0 < w_pressure w -> 0 <= w_vapor w -> in_S_band fc \/ in_Ka_band fc -> 10 <= e <= 90 ->
  pl_gas w fc e = zenith_attenuation (fc / 10 ^ 9) (w_pressure w) (w_temperature w) (w_vapor w) / sin (radians e).
Proof. exact C43_gas_formula_l. Qed.
Print Assumptions C43_gas_formula.

(* C43: the scintillation loss is never negative. *)
Theorem C43_scintillation_nonnegative :
  forall w fc e,
    0 <= pl_scint w fc e.
Proof. exact pl_scint_nonneg. Qed.
Print Assumptions C43_scintillation_nonnegative.

(* C57: v^2 (R + h) = G M. *)
Theorem C57_circular_orbit_speed :
  forall h,
    0 <= h ->
  (satellite_speed h) ^ 2 * (earth_radius + h) = grav_const * earth_mass.
Proof. exact satellite_speed_sq. Qed.
Print Assumptions C57_circular_orbit_speed.

Example C57_speed_example : 7500 < satellite_speed 600000 < 7600.
Proof.
  assert (H := satellite_speed_sq 600000 ltac:(lra)). assert (P := satellite_speed_pos 600000 ltac:(lra)).
  set (v := satellite_speed 600000) in *. unfold grav_const, earth_mass, earth_radius in H.
  assert (V : 7500 ^ 2 < v ^ 2 < 7600 ^ 2) by lra. split; nra.
Qed.

(* C57: speed and shift in SI units. *)
Theorem C57_speed_and_shift :
  forall h e fc, 0 <= h ->
  0 < satellite_speed h /\ satellite_speed h ^ 2 * (6371000 + h) = 3.98589196e14 /\
  satellite_doppler_shift h e fc = satellite_speed h / 299792458 * (6371000 / (6371000 + h)) * cos (radians e) * fc /\
  compute_stallite_doppler h e fc = fc + satellite_doppler_shift h e fc.
Proof. exact C57_exact_l. Qed.
Print Assumptions C57_speed_and_shift.

(* C57 *)
Theorem C57_speed_decreases_with_height :
  forall h1 h2,
    0 <= h1 -> h1 < h2 -> satellite_speed h2 < satellite_speed h1.
Proof. exact satellite_speed_decr. Qed.
Print Assumptions C57_speed_decreases_with_height.

(* C57: the shift lies between 0 and v/c times the carrier. *)
Theorem C57_doppler_shift_bounded :
  forall h e fc,
    0 <= h -> 0 <= fc -> -90 <= e <= 90 ->
  0 <= satellite_doppler_shift h e fc <= satellite_speed h / speed_of_light * fc.
Proof. exact doppler_bound. Qed.
Print Assumptions C57_doppler_shift_bounded.

(* the function itself returns the shifted carrier, not the shift *)
Theorem C57_function_returns_shifted_carrier :
  forall h e fc, 0 <= h -> 0 <= fc -> -90 <= e <= 90 ->
    fc <= compute_stallite_doppler h e fc <= fc + satellite_speed h / speed_of_light * fc.
Proof. exact doppler_carrier. Qed.
Print Assumptions C57_function_returns_shifted_carrier.

Example C57_doppler_example : satellite_doppler_shift 600000 90 2e9 = 0.
Proof. apply doppler_zenith. Qed.

(* C58, below 6 GHz: positive, a function of the carrier alone, strictly decreasing, 1.1/sqrt 2 dB at 4 GHz
   and proportional to carrier^(-3/2). *)
Theorem C58_ionospheric_scintillation :
  forall fc w e,
    0 < fc < 6 * 10 ^ 9 ->
  0 < pl_scint w fc e /\ (forall w' e', pl_scint w' fc e' = pl_scint w fc e) /\
  (forall fc', fc < fc' < 6 * 10 ^ 9 -> pl_scint w fc' e < pl_scint w fc e) /\
  pl_scint w (4 * 10 ^ 9) e = 1.1 / sqrt 2 /\
  (pl_scint w fc e) ^ 2 * (fc / (4 * 10 ^ 9)) ^ 3 = 1.1 ^ 2 / 2.
Proof. exact iono_law. Qed.
Print Assumptions C58_ionospheric_scintillation.

(* C58, from 6 GHz: positive whenever the antenna averaging factor is defined. *)
Theorem C58_tropospheric_scintillation_positive :
  forall w fc e,
    6 * 10 ^ 9 <= fc -> 10 <= e <= 90 -> 0 < w_temperature w -> 0 <= w_humidity w ->
  0 < scint_g2 w (fc / 10 ^ 9) e -> 0 < pl_scint w fc e.
Proof. exact tropo_pos. Qed.
Print Assumptions C58_tropospheric_scintillation_positive.

(* C58, from 6 GHz: the tabulated formula, with the effective path length of the code. *)
Theorem C58_tropospheric_formula :
  forall w fc e,
  6 * 10 ^ 9 <= fc -> 10 <= e <= 90 -> 0 < w_temperature w -> 0 <= w_humidity w -> 0 <= w_efficiency w ->
  0 <= scint_g2 w (fc / 10 ^ 9) e ->
  pl_scint w fc e = scintillation_depth (scint_path_length e) (fc / 10 ^ 9) (w_temperature w) (w_humidity w) (w_diameter w) (w_efficiency w) e /\
  scint_path_length e = 2 * 1000 / sqrt (sin (radians e) ^ 2 + 0.000235 + sin (radians e)).
Proof. exact C58_tropospheric_formula_l. Qed.
Print Assumptions C58_tropospheric_formula.

(* x = 1/64 in the averaging factor *)
Example C58_tropospheric_example : exists w, 0 < w_temperature w /\ 0 <= w_humidity w /\ 0 <= w_efficiency w /\
  0 < scint_g2 w 30 90.
Proof. exact tropo_example. Qed.

(* C58 fails: from 30 degrees up the effective path length is strictly larger than the one of ITU-R P.618. *)
Theorem C58_effective_path_length_refuted :
  forall e,
    30 <= e <= 90 -> itu_path_length e < scint_path_length e.
Proof. exact path_length_wrong. Qed.
Print Assumptions C58_effective_path_length_refuted.

(* ... by more than 39 percent at zenith. *)
Theorem C58_effective_path_length_at_zenith_refuted :
  itu_path_length 90 < 1001 /\ 1400 < scint_path_length 90.
Proof. exact path_length_zenith. Qed.
Print Assumptions C58_effective_path_length_at_zenith_refuted.

(* C58 fails: for a 50 m antenna at 30 GHz the square root is taken of a negative number (ITU-R P.618 sets
   the loss to 0 there; TensorFlow yields NaN). *)
Theorem C58_averaging_factor_undefined_refuted :
  scint_g2 big_dish 30 90 < 0.
Proof. exact radicand_negative. Qed.
Print Assumptions C58_averaging_factor_undefined_refuted.

