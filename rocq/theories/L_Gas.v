(* The gas attenuation and scintillation of the model are the tabulated formulas: C43, C57, C58. *)
From Coq Require Import Reals List Lra.
From Verif Require Import M_Base L_Base L_Trig M_Params S_Config M_Geometry M_Pathloss S_Pathloss S_Gas L_Pathloss L_Loss.
Import ListNotations.
Open Scope R_scope.

Lemma pow2_pos_ne x : x <> 0 -> x ^ 2 <> 0.
Proof. intros H. apply pow_nonzero. exact H. Qed.

Lemma Yw_table w f : 0 < f < 350 -> gas_Yw w f = vapour_attenuation f (press_ratio (w_pressure w)) (temp_ratio (w_temperature w)) (w_vapor w).
Proof.
  intros F. unfold gas_Yw, vapour_attenuation, vapour_lines. cbn [map Rsum line_value vl_f0 vl_strength vl_decay vl_width vl_shape vl_second].
  unfold line_value. cbn [vl_f0 vl_strength vl_decay vl_width vl_shape vl_second].
  change (eta1 (press_ratio (w_pressure w)) (temp_ratio (w_temperature w)) (w_vapor w)) with (gas_n1 w).
  change (eta2 (press_ratio (w_pressure w)) (temp_ratio (w_temperature w)) (w_vapor w)) with (gas_n2 w).
  change (temp_ratio (w_temperature w)) with (gas_rt w).
  cbv zeta.
  assert (E : forall a, (f - a) ^ 2 + 0 * gas_n1 w ^ 2 = (f - a) ^ 2) by (intros; ring).
  rewrite !E. unfold Rdiv. replace (/ 10 ^ 4) with (/ 10000) by (f_equal; ring). ring.
Qed.
Lemma Yo_phi w f : gas_Yo w f = dry_attenuation f (press_ratio (w_pressure w)) (temp_ratio (w_temperature w)).
Proof.
  unfold gas_Yo, dry_attenuation, phi, gas_ee1, gas_ee2, gas_ee3. change (temp_ratio (w_temperature w)) with (gas_rt w).
  change (press_ratio (w_pressure w)) with (gas_rp w). cbv zeta. replace (0 - 6.5851) with (-6.5851) by lra.
  replace (/ 10 ^ 3) with (/ 1000) by (f_equal; ring). unfold Rdiv. ring.
Qed.
Lemma ho_sum w f : gas_ho w f = dry_height f (press_ratio (w_pressure w)).
Proof.
  unfold gas_ho, dry_height. change (press_ratio (w_pressure w)) with (gas_rp w). cbn [Rsum]. cbv zeta.
  replace (1.61 / 10 ^ 6) with 1.61e-6 by lra. replace (4.1 / 10 ^ 5) with 4.1e-5 by lra. replace (3.2 / 10 ^ 7) with 3.2e-7 by lra.
  unfold Rdiv. ring.
Qed.
Lemma hw_sum w f : gas_hw w f = vapour_height f (press_ratio (w_pressure w)).
Proof.
  unfold gas_hw, vapour_height, height_lines. change (press_ratio (w_pressure w)) with (gas_rp w). cbn [map Rsum]. cbv zeta.
  replace (0 - 8.1) with (-8.1) by lra. unfold Rdiv. ring.
Qed.

Lemma C43_gas_formula_l w fc e :
  0 < w_temperature w -> 0 < w_pressure w -> 0 <= w_vapor w -> in_S_band fc \/ in_Ka_band fc -> 10 <= e <= 90 ->
  pl_gas w fc e = zenith_attenuation (fc / 10 ^ 9) (w_pressure w) (w_temperature w) (w_vapor w) / sin (radians e).
Proof.
  intros T P V B E. assert (F := band_ghz fc B). assert (Zp := gas_zenith_pos w _ T P V F).
  assert (S := sin_elev_pos e ltac:(lra)).
  unfold pl_gas in *. rewrite pow10_9 in *.
  assert (F' : 1 < fc / 10 ^ 9 < 50) by (unfold in_S_band, in_Ka_band in B; split; lra).
  assert (Z : gas_zenith w (fc / 10 ^ 9) = zenith_attenuation (fc / 10 ^ 9) (w_pressure w) (w_temperature w) (w_vapor w)).
  { unfold gas_zenith, zenith_attenuation. cbv zeta. rewrite Yo_phi, ho_sum, (Yw_table w (fc / 10 ^ 9)), hw_sum by lra. reflexivity. }
  rewrite Z in *. change (sin (radians e)) with (sin (deg_2_rad e)). apply Rabs_pos_eq. left. apply Rdiv_lt_0_compat; lra.
Qed.

Lemma C58_tropospheric_formula_l w fc e :
  6 * 10 ^ 9 <= fc -> 10 <= e <= 90 -> 0 < w_temperature w -> 0 <= w_humidity w -> 0 <= w_efficiency w ->
  0 <= scint_g2 w (fc / 10 ^ 9) e ->
  pl_scint w fc e = scintillation_depth (scint_path_length e) (fc / 10 ^ 9) (w_temperature w) (w_humidity w) (w_diameter w) (w_efficiency w) e /\
  scint_path_length e = 2 * 1000 / sqrt (sin (radians e) ^ 2 + 0.000235 + sin (radians e)).
Proof.
  intros Hf He HT HH HE _. split.
  2: { unfold scint_path_length. change (sin (radians e)) with (sin (deg_2_rad e)). replace (2.35 / 10 ^ 4) with 0.000235 by lra. reflexivity. }
  unfold pl_scint. rewrite pow10_9.
  assert (F : 6 <= fc / 10 ^ 9).
  { apply Rmult_le_reg_r with (10 ^ 9); [lra|]. unfold Rdiv. rewrite Rmult_assoc, Rinv_l by lra. lra. }
  rewrite (proj2 (Rleb_true _ _) F). unfold scint_tropo, scintillation_depth. cbv zeta.
  assert (L : log10 0.01 = -2).
  { replace 0.01 with (pow10 (-2)); [apply log10_pow10|].
    replace (-2) with (- (1 + 1)) by lra. rewrite pow10_opp, pow10_plus.
    unfold pow10. rewrite Rpower_1 by lra. lra. }
  rewrite L. unfold scint_g2, scint_x. cbv zeta.
  replace (1.22 * (sqrt (w_efficiency w) * w_diameter w) ^ 2 * (fc / 10 ^ 9) / scint_path_length e)
    with (1.22 * (w_efficiency w * w_diameter w ^ 2) * (fc / 10 ^ 9) / scint_path_length e).
  2: { replace ((sqrt (w_efficiency w) * w_diameter w) ^ 2) with ((sqrt (w_efficiency w) * sqrt (w_efficiency w)) * w_diameter w ^ 2) by ring.
       rewrite sqrt_sqrt by exact HE. reflexivity. }
  set (x := 1.22 * (w_efficiency w * w_diameter w ^ 2) * (fc / 10 ^ 9) / scint_path_length e).
  change (3.86 * Rpower (x ^ 2 + 1) (11 / 12) * sin (11 / 6 * atan (1 / x)) - 7.08 * Rpower x (5 / 6)) with (averaging_squared x).
  change (sin (radians e)) with (sin (deg_2_rad e)). unfold wet_refractivity. cbv zeta.
  replace (w_temperature w - 273 + 273) with (w_temperature w) by ring.
  set (es := 6.1121 * exp (17.502 * (w_temperature w - 273) / (w_temperature w - 273 + 240.97))).
  assert (ES : 0 < es) by (unfold es; pose proof (exp_pos (17.502 * (w_temperature w - 273) / (w_temperature w - 273 + 240.97))); lra).
  set (N := 3732 * w_humidity w * es / w_temperature w ^ 2).
  assert (NN : 0 <= N).
  { unfold N. apply Rmult_le_pos; [|left; apply Rinv_0_lt_compat, pow_lt; lra]. apply Rmult_le_pos; [|lra]. lra. }
  replace (/ 10 ^ 4) with (/ 10000) by (f_equal; ring). replace (3.6 / 10 ^ 3) with 0.0036 by lra.
  set (A := sqrt (averaging_squared x)). assert (AN : 0 <= A) by apply sqrt_pos.
  set (B := Rpower (fc / 10 ^ 9) (7 / 12)). assert (BN : 0 < B) by apply exp_pos.
  set (C := Rpower (sin (deg_2_rad e)) 1.2). assert (CN : 0 < C) by apply exp_pos.
  rewrite Rabs_pos_eq.
  - replace (-0.061 * (-2) ^ 3 + 0.072 * (-2) ^ 2 - 1.71 * -2 + 3.0) with 7.196 by lra. unfold Rdiv. reflexivity.
  - apply Rmult_le_pos; [lra|]. apply Rmult_le_pos; [|left; apply Rinv_0_lt_compat; exact CN].
    apply Rmult_le_pos; [|exact AN]. apply Rmult_le_pos; [lra|lra].
Qed.

Lemma C57_exact_l h e fc : 0 <= h ->
  0 < satellite_speed h /\ satellite_speed h ^ 2 * (6371000 + h) = 3.98589196e14 /\
  satellite_doppler_shift h e fc = satellite_speed h / 299792458 * (6371000 / (6371000 + h)) * cos (radians e) * fc /\
  compute_stallite_doppler h e fc = fc + satellite_doppler_shift h e fc.
Proof.
  intros H. split; [apply satellite_speed_pos; exact H|]. split.
  - change 6371000 with earth_radius. rewrite satellite_speed_sq by exact H. unfold grav_const, earth_mass. lra.
  - split; [|unfold compute_stallite_doppler; ring].
    unfold satellite_doppler_shift. unfold earth_radius, speed_of_light. change (deg_2_rad e) with (radians e). ring.
Qed.
