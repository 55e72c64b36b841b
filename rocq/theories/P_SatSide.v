(* Property C108: a satellite sees each link in one direction. *)
From Coq Require Import Reals String List Bool Arith Lia.
From Verif Require Import M_Base M_Params S_Config M_Geometry M_Pathloss M_Scenario S_Topology M_Lsp M_Rays S_Rays
  M_Antenna M_Cplx M_Coeff S_Coeff M_Channel S_Channel S_Ray L_Fresh L_RaysEx L_SatSide L_SatArray L_SatSideEx.
Import ListNotations.
Open Scope string_scope.
Open Scope list_scope.
Open Scope R_scope.

(* C108: downlink, outside the Urban environment, satellite at 160 km or above: all rays of all clusters of a link leave the satellite in one direction, on a LoS link the direction of the UT. *)
Theorem C108_one_direction :
  forall sc st a dr st' mask srt lsps d rr,
  constructed sc -> set_topology sc st a dr = (st', Ok true) -> compute_clusters_mask st' = Ok mask ->
  gen_rays srt st' mask lsps d = Ok rr -> sc_dir sc = "downlink" -> sc_env sc <> Urban ->
  exists ut bs los, s_ut_loc st' = Some ut /\ s_bs_loc st' = Some bs /\ s_los st' = Some los /\
    (160000 <= vz (t_at bs 0%nat 0%nat) -> forall b s u r, rr b s u = Some r ->
     exists theta phi, (forall c q, r_zod r c q = theta /\ r_aod r c q = phi) /\ 0 <= theta <= PI /\ - PI < phi <= PI /\
       (los b s u = true -> let x := vsub (t_at ut b u) (t_at bs b s) in vscale (vnorm x) (rho_hat theta phi) = x)).
Proof. exact C108_one_direction_l. Qed.
Print Assumptions C108_one_direction.

(* C108, azimuth and zenith separately: outside the Urban environment all rays have the azimuth of the UT in either direction of transmission; downlink they have one zenith angle in every environment. *)
Theorem C108_halves :
  forall sc st a dr st' mask srt lsps d rr,
  constructed sc -> set_topology sc st a dr = (st', Ok true) -> compute_clusters_mask st' = Ok mask ->
  gen_rays srt st' mask lsps d = Ok rr ->
  exists bs g, s_bs_loc st' = Some bs /\ s_geo st' = Some g /\
    (160000 <= vz (t_at bs 0%nat 0%nat) -> forall b s u r, rr b s u = Some r ->
      (sc_env sc <> Urban -> forall c q, same_angle (degrees (r_aod r c q)) (g_aod g b s u)) /\
      (sc_dir sc = "downlink" -> forall c q c' q', r_zod r c q = r_zod r c' q')).
Proof. exact C108_halves_l. Qed.
Print Assumptions C108_halves.

(* C108 as seen in the coefficients: antennas of the satellite with the same element differ, on every path and at every time, by the phase of their distance along that one direction and by nothing else; they have the same power. *)
Theorem C108_array :
  forall srt srtd j1 pb ua ba sc al ops a dr z fs d out,
  constructed sc -> settled sc al ops a dr z -> make_array j1 pb = Ok ba -> sc_dir sc = "downlink" -> sc_env sc <> Urban ->
  let c := chan_run sc al (chan_init sc) ops in
  chan_call srt srtd sc ua ba al c fs d = Ok out ->
  exists ut bs bo los, s_ut_loc (c_st c) = Some ut /\ s_bs_loc (c_st c) = Some bs /\ s_bs_ori (c_st c) = Some bo /\ s_los (c_st c) = Some los /\
    (160000 <= vz (t_at bs 0%nat 0%nat) -> forall b s u, exists theta phi, 0 <= theta <= PI /\ - PI < phi <= PI /\
       (los b s u = true -> let x := vsub (t_at ut b u) (t_at bs b s) in vscale (vnorm x) (rho_hat theta phi) = x) /\
       forall e i1 i2, antenna_element ba i1 e -> antenna_element ba i2 e -> forall iu p t h1,
         link_coefficient (sc_dir sc) out b s i1 u iu p t = Some h1 ->
         exists h2, link_coefficient (sc_dir sc) out b s i2 u iu p t = Some h2 /\
           cmul h2 (steering (sc_fc sc) (t_at bo b s) (pa_pos ba i1) theta phi) =
           cmul h1 (steering (sc_fc sc) (t_at bo b s) (pa_pos ba i2) theta phi) /\
           cnorm2 h2 = cnorm2 h1).
Proof. exact C108_array_l. Qed.
Print Assumptions C108_array.

(* C108 is false in the Urban environment: in every cluster of every link two rays leave at different azimuths. *)
Theorem C108_urban_refuted :
  forall sc st a dr st' mask srt lsps d rr,
  constructed sc -> set_topology sc st a dr = (st', Ok true) -> compute_clusters_mask st' = Ok mask -> valid_argsort srt ->
  gen_rays srt st' mask lsps d = Ok rr -> sc_env sc = Urban ->
  exists bs, s_bs_loc st' = Some bs /\
    (160000 <= vz (t_at bs 0%nat 0%nat) -> forall b s u r, rr b s u = Some r ->
     forall c, exists q q', (q < 20)%nat /\ (q' < 20)%nat /\ r_aod r c q <> r_aod r c q').
Proof. exact C108_urban_l. Qed.
Print Assumptions C108_urban_refuted.

(* C108 is false in the uplink: in every cluster of every link two rays have different zenith angles at the satellite. *)
Theorem C108_uplink_refuted :
  forall sc st a dr st' mask srt lsps d rr,
  constructed sc -> set_topology sc st a dr = (st', Ok true) -> compute_clusters_mask st' = Ok mask -> valid_argsort srt ->
  gen_rays srt st' mask lsps d = Ok rr -> sc_dir sc = "uplink" ->
  exists bs, s_bs_loc st' = Some bs /\
    (160000 <= vz (t_at bs 0%nat 0%nat) -> forall b s u r, rr b s u = Some r ->
     forall c, exists q q', (q < 20)%nat /\ (q' < 20)%nat /\ r_zod r c q <> r_zod r c q').
Proof. exact C108_uplink_l. Qed.
Print Assumptions C108_uplink_refuted.

(* the hypotheses of the theorems on rays hold: every environment and direction has a scenario, and one outdoor UT below a satellite at 600 km has rays in each *)
Example C108_rays_example : (forall e dir, dir = "downlink" \/ dir = "uplink" -> exists sc, constructed sc /\ sc_env sc = e /\ sc_dir sc = dir) /\
  forall sc, constructed sc -> exists st' mask los,
  set_topology sc (init_state sc) (one_ut (V3 600000 0 0) false (Some true)) no_draws = (st', Ok true) /\
  compute_clusters_mask st' = Ok mask /\ s_los st' = Some los /\ los 0%nat 0%nat 0%nat = true /\
  s_bs_loc st' = Some (t1 (V3 0 0 600000)) /\
  exists d, forall lsps, exists rr r, gen_rays argsort st' mask lsps d = Ok rr /\ rr 0%nat 0%nat 0%nat = Some r.
Proof. split; [exact scenario_exists | exact rays_run]. Qed.

(* the hypotheses of C108_array hold: a row of two vertical antennas on the satellite, one UT in the SubUrban scenario *)
Example C108_array_example : forall srt srtd j1, valid_argsort srt -> valid_argsort_desc srtd ->
  exists sc ua pb ba e a dr z fs d out,
    constructed sc /\ settled sc false [SetTopology a dr z] a dr z /\ make_array j1 pb = Ok ba /\ sc_dir sc = "downlink" /\ sc_env sc <> Urban /\
    let c := chan_run sc false (chan_init sc) [SetTopology a dr z] in
    chan_call srt srtd sc ua ba false c fs d = Ok out /\ s_bs_loc (c_st c) = Some (t1 (V3 0 0 600000)) /\
    antenna_element ba 0 e /\ antenna_element ba 1 e /\ pa_pos ba 0%nat <> pa_pos ba 1%nat /\
    forall t, exists h, link_coefficient (sc_dir sc) out 0 0 0 0 0 0 t = Some h.
Proof. exact C108_example_l. Qed.
