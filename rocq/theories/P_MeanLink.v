(* Property C84: mean received power of one link of the channel object over the random phases. *)
From Coq Require Import Reals String List Bool Arith.
From Verif Require Import M_Base M_Params S_Config M_Geometry M_Pathloss M_Scenario S_Topology M_Lsp M_Rays M_Antenna M_Cplx M_Coeff S_Coeff M_Channel S_Channel
  S_Ray S_Mean S_MeanLink L_MeanLink L_MeanLinkEx.
Import ListNotations.
Open Scope string_scope.
Open Scope list_scope.
Open Scope R_scope.

(* C84: averaged over the phases of its rays a link receives path gain times shadow fading times the Ricean mixture of direct and scattered power. *)
Theorem C84_link_mean_power :
  forall srt srtd j1 pu pb ua ba sc al ops a dr z fs d D b s is u iu t,
  valid_argsort srt -> valid_argsort_desc srtd -> constructed sc -> settled sc al ops a dr z ->
  make_array j1 pu = Ok ua -> make_array j1 pb = Ok ba -> (is < pa_num_ant ba)%nat -> (iu < pa_num_ant ua)%nat ->
  only_phases_vary (sc_dir sc) b s u d D ->
  let c := chan_run sc al (chan_init sc) ops in
  let call ph := chan_call srt srtd sc ua ba al c fs (D ph) in
  exists lsps mask rr vel uo bo bs g los ind pl n1 n2,
    (forall ph, is_ok (call ph)) /\
    (if al then lsp_sampler c (cd_lsp d) = Ok lsps else c_lsp c = Some lsps) /\ c_mask c = Some mask /\
    gen_rays srt (c_st c) mask lsps (cd_rays d) = Ok rr /\
    s_ut_vel (c_st c) = Some vel /\ s_ut_ori (c_st c) = Some uo /\ s_bs_ori (c_st c) = Some bo /\ s_bs_loc (c_st c) = Some bs /\
    s_geo (c_st c) = Some g /\ s_los (c_st c) = Some los /\ s_in (c_st c) = Some ind /\
    (sc_pathloss sc = true -> sample_pathloss (c_st c) = Ok pl) /\
    (forall l, documented_value (sc_env sc) (sc_fc sc) (sc_dir sc) (sc_elev sc) l "numClusters"
                 (Fin (INR (if l then n1 else n2)))) /\
    (t_at ind b u = false -> (los b s u = true -> Rpower 10 (- 6.3) <= l_k (lsps b s u)) ->
     let n := Nat.max n1 n2 in
     let K := l_k (lsps b s u) in
     let gain := (if sc_pathloss sc then Rpower 10 (- pl b s u / 10) else 1) * (if sc_shadow sc then l_sf (lsps b s u) else 1) in
     exists y, rr b s u = Some y /\ length (r_powers y) = n /\ Rsum (r_powers y) = 1 /\ (forall c, 0 <= nth c (r_powers y) 0) /\
       (forall c q, 0 < r_xpr y c q) /\
       let up := String.eqb (sc_dir sc) "uplink" in
       let G := if up then swap_gen (down_arrays sc ua ba) else down_arrays sc ua ba in
       let L0 := down_link sc (c_st c) vel uo bo bs g los (cd_dir d) b s u in
       let L := if up then swap_topo L0 else L0 in
       let Y := if up then swap_rays y else y in
       let rx := if up then is else iu in let tx := if up then iu else is in
       forall F E, fields_of G L Y n F -> uniform_phases n E ->
         E (fun ph => match call ph with Ok o => creal (received_power (sc_dir sc) o b s is u iu (n + 4) t) | Err _ => c0 end) =
         creal (gain * ricean (los b s u) K (cnorm2 (los_ray G L (fun t => INR t / fs) rx tx t)) (scattered_power Y F n rx tx))).
Proof. exact C84_link_l. Qed.
Print Assumptions C84_link_mean_power.

(* C84: between vertical omnidirectional antennas the mean is the path gain times shadow fading, reduced only by the Faraday rotation. *)
Theorem C84_vertical_omni :
  forall srt srtd j1 pu pb ua ba sc al ops a dr z fs d D b s is u iu t,
  valid_argsort srt -> valid_argsort_desc srtd -> constructed sc -> settled sc al ops a dr z ->
  make_array j1 pu = Ok ua -> make_array j1 pb = Ok ba -> (is < pa_num_ant ba)%nat -> (iu < pa_num_ant ua)%nat ->
  vertical_omni pu -> vertical_omni pb -> only_phases_vary (sc_dir sc) b s u d D ->
  let c := chan_run sc al (chan_init sc) ops in
  let call ph := chan_call srt srtd sc ua ba al c fs (D ph) in
  exists lsps mask rr uo bo bs g los ind pl n1 n2,
    (forall ph, is_ok (call ph)) /\
    (if al then lsp_sampler c (cd_lsp d) = Ok lsps else c_lsp c = Some lsps) /\ c_mask c = Some mask /\
    gen_rays srt (c_st c) mask lsps (cd_rays d) = Ok rr /\
    s_ut_ori (c_st c) = Some uo /\ s_bs_ori (c_st c) = Some bo /\ s_bs_loc (c_st c) = Some bs /\
    s_geo (c_st c) = Some g /\ s_los (c_st c) = Some los /\ s_in (c_st c) = Some ind /\
    (sc_pathloss sc = true -> sample_pathloss (c_st c) = Ok pl) /\
    (forall l, documented_value (sc_env sc) (sc_fc sc) (sc_dir sc) (sc_elev sc) l "numClusters"
                 (Fin (INR (if l then n1 else n2)))) /\
    (t_at ind b u = false -> (los b s u = true -> Rpower 10 (- 6.3) <= l_k (lsps b s u)) ->
     upright (t_at uo b u) -> upright (t_at bo b s) ->
     let n := Nat.max n1 n2 in
     let K := l_k (lsps b s u) in
     let gain := (if sc_pathloss sc then Rpower 10 (- pl b s u / 10) else 1) * (if sc_shadow sc then l_sf (lsps b s u) else 1) in
     exists y, rr b s u = Some y /\
       forall E faraday, uniform_phases n E ->
       (forall c r, (c < n)%nat -> (r < 20)%nat -> slanted (r_zoa y c r) /\ slanted (r_zod y c r)) ->
       slanted (deg_2_rad (g_zoa g b s u)) -> slanted (deg_2_rad (g_zod g b s u)) ->
       (600000 <= vz (t_at bs 0%nat 0%nat) -> faraday = 108 / ((sc_fc sc / 1e9) * (sc_fc sc / 1e9)) * PI / 180) ->
       (vz (t_at bs 0%nat 0%nat) < 600000 -> faraday = 0) ->
       let leak := Rsum (map (fun cr => nth (fst cr) (r_powers y) 0 / 20 * (1 / r_xpr y (fst cr) (snd cr))) (list_prod (seq 0 n) (seq 0 20))) in
         E (fun ph => match call ph with Ok o => creal (received_power (sc_dir sc) o b s is u iu (n + 4) t) | Err _ => c0 end) =
         creal (gain * ((cos faraday)² + (if los b s u then 1 / (K + 1) else 1) * (leak * (sin faraday)²)))).
Proof. exact C84_omni_l. Qed.
Print Assumptions C84_vertical_omni.

(* Non-vacuity: a forced-NLoS UT of a Dense Urban downlink scenario at 2 GHz under a satellite at 600 km. *)
Example mean_link_example : forall srt srtd j1, valid_argsort srt -> valid_argsort_desc srtd ->
  exists sc a dr z ua ba D E n gain leak, constructed sc /\ settled sc false [SetTopology a dr z] a dr z /\ uniform_phases n E /\
    0 < gain /\ 0 < leak /\
    (exists pu pb, vertical_omni pu /\ vertical_omni pb /\ make_array j1 pu = Ok ua /\ make_array j1 pb = Ok ba) /\
    (exists d, only_phases_vary (sc_dir sc) 0 0 0 d D) /\
    let c := chan_run sc false (chan_init sc) [SetTopology a dr z] in
    forall t, E (fun ph => match chan_call srt srtd sc ua ba false c 1e6 (D ph) with
                 | Ok o => creal (received_power (sc_dir sc) o 0 0 0 0 0 (n + 4) t) | Err _ => c0 end) =
    creal (gain * ((cos (27 * PI / 180))² + leak * (sin (27 * PI / 180))²)).
Proof. exact mean_link_example_l. Qed.
