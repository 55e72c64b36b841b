(* The Doppler frequencies of the tapped delay lines: C71. *)
From Coq Require Import Reals String List Bool Arith Lia Lra ZArith.
From Verif Require Import M_Base L_Base L_Trig M_Json D_Links M_Params M_Geometry M_Cplx L_Coeff M_Convert M_Links S_Convert S_Links L_Csum L_Grids L_Convert L_Tdl.
Import ListNotations.
Open Scope string_scope.
Open Scope list_scope.
Open Scope R_scope.

Lemma doppler_exact h e fc v : -6371000 < h ->
  tdl_doppler h e fc v = 2 * PI * (v / light) * fc + satellite_doppler h e fc / 3600.
Proof.
  intros H. unfold tdl_doppler, satellite_doppler. cbv zeta.
  assert (E : 6.6743 * / 10 ^ 11 * (5.972 * 10 ^ 24) / (6371 * 1000 + h / 1000 * 1000) = earth_gm / (earth_radius_m + h)).
  { unfold earth_gm, earth_radius_m. replace (6371 * 1000 + h / 1000 * 1000) with (6371000 + h) by field.
    generalize 6.6743 5.972. intros a b. change (10 ^ 24) with (10 ^ (11 + 13)). rewrite pow_add.
    field. lra. }
  rewrite E. set (q := sqrt _).
  replace (deg_2_rad e) with (e * PI / 180) by (unfold deg_2_rad; field).
  unfold speed_of_light, light, earth_radius_m.
  replace (6371 / (6371 + h / 1000)) with (6371000 / (6371000 + h)) by (field; lra).
  set (c := cos _). set (s := 6371000 / (6371000 + h)). 
  assert (X : q / 1000 / (299792458 * 3.6) = q / 299792458 / 3600) by lra.
  rewrite X. field.
Qed.
Lemma satellite_doppler_pos h e fc : 0 <= h -> 0 <= e < 90 -> 0 < fc -> 0 < satellite_doppler h e fc.
Proof.
  intros H E F. unfold satellite_doppler, earth_gm, earth_radius_m, light. pose proof PI_RGT_0.
  assert (0 < cos (e * PI / 180)) by (apply cos_gt_0; nra).
  assert (0 < 10 ^ 13) by (apply pow_lt; lra).
  apply Rmult_lt_0_compat; [|exact F]. apply Rmult_lt_0_compat.
  - apply Rdiv_lt_0_compat; [|lra]. apply sqrt_lt_R0. apply Rdiv_lt_0_compat; [|lra]. nra.
  - apply Rmult_lt_0_compat; [|assumption]. apply Rdiv_lt_0_compat; lra.
Qed.

(* what the constructed model uses *)
Lemma C71_exact_l chol a t p : tdl_init chol a = Ok t -> documented_profile (ta_model a) = Some p ->
  let vmax := match ta_max_speed a with None => ta_min_speed a | Some v => v end in
  td_min_doppler t = 2 * PI * (ta_min_speed a / light) * ta_fc a + satellite_doppler (ta_height a) (ta_elev a) (ta_fc a) / 3600 /\
  td_max_doppler t = 2 * PI * (vmax / light) * ta_fc a + satellite_doppler (ta_height a) (ta_elev a) (ta_fc a) / 3600 /\
  td_max_doppler t - td_min_doppler t = 2 * PI * ((vmax - ta_min_speed a) / light) * ta_fc a /\
  (0 <= ta_fc a -> td_min_doppler t <= td_max_doppler t).
Proof.
  intros I D. pose proof (init_shape _ _ _ _ I D) as S. cbv zeta.
  assert (V : ta_min_speed a <= match ta_max_speed a with None => ta_min_speed a | Some v => v end).
  { clear S D. unfold tdl_init in I. destruct (ta_max_speed a) as [w|]; [|lra].
    destruct (negb (mem (ta_model a) tdl_models)); [discriminate|]. destruct (tdl_file (ta_model a) (ta_ds a)) as [[f|] ds].
    2: { destruct (negb (Rleb 160000 (ta_height a))); [discriminate|]. destruct (negb (Rleb 0 (ta_elev a) && Rleb (ta_elev a) 90)); discriminate. }
    destruct (negb (Rleb 160000 (ta_height a))); [discriminate|]. destruct (negb (Rleb 0 (ta_elev a) && Rleb (ta_elev a) 90)); [discriminate|].
    destruct (open_link f links_dir); cbn [bind] in I; [|discriminate]. destruct (tdl_load a0); cbn [bind] in I; [|discriminate].
    destruct (Rleb (ta_min_speed a) w) eqn:L; [apply Rleb_true in L; exact L|discriminate]. }
  set (vmax := match ta_max_speed a with None => ta_min_speed a | Some v => v end) in *.
  pose proof (sh_height _ _ _ _ S). rewrite (sh_min _ _ _ _ S), (sh_max _ _ _ _ S). fold vmax. rewrite !doppler_exact by lra.
  split; [reflexivity|]. split; [reflexivity|].
  assert (E : 2 * PI * (vmax / light) * ta_fc a + satellite_doppler (ta_height a) (ta_elev a) (ta_fc a) / 3600 -
              (2 * PI * (ta_min_speed a / light) * ta_fc a + satellite_doppler (ta_height a) (ta_elev a) (ta_fc a) / 3600) =
              2 * PI * ((vmax - ta_min_speed a) / light) * ta_fc a) by (unfold light; field).
  split; [exact E|]. intros F. pose proof PI_RGT_0.
  assert (0 <= 2 * PI * ((vmax - ta_min_speed a) / light) * ta_fc a); [|lra].
  apply Rmult_le_pos; [|exact F]. apply Rmult_le_pos; [lra|]. apply Rle_mult_inv_pos; unfold light; lra.
Qed.

(* the contribution of the satellite is not the one of TR 38.811 *)
Lemma C71_satellite_refuted_l chol a t p : tdl_init chol a = Ok t -> documented_profile (ta_model a) = Some p ->
  0 < ta_fc a -> ta_elev a < 90 ->
  let vmax := match ta_max_speed a with None => ta_min_speed a | Some v => v end in
  td_max_doppler t < 2 * PI * (vmax / light) * ta_fc a + satellite_doppler (ta_height a) (ta_elev a) (ta_fc a).
Proof.
  intros I D F E. destruct (C71_exact_l chol a t p I D) as (_ & M & _). cbv zeta in *. rewrite M.
  pose proof (init_shape _ _ _ _ I D) as S. pose proof (sh_height _ _ _ _ S). destruct (sh_elev _ _ _ _ S).
  pose proof (satellite_doppler_pos (ta_height a) (ta_elev a) (ta_fc a)). lra.
Qed.
