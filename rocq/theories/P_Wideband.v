(* Property C89: mean power per subcarrier and correlation over frequency and time of the OFDM channel of a link. *)
From Coq Require Import Reals String List Bool Arith Sorting.Sorted.
From Verif Require Import M_Base M_Params S_Config M_Geometry M_Pathloss M_Scenario S_Topology M_Lsp M_Rays M_Antenna M_Cplx M_Coeff S_Coeff M_Channel S_Channel
  S_Ray S_Mean S_MeanLink M_Convert S_Convert S_Wideband L_Wideband L_WidebandEx.
Import ListNotations.
Open Scope string_scope.
Open Scope list_scope.
Open Scope R_scope.

(* C89: averaged over the phases of its rays, the OFDM channel of a link has the same mean power on every subcarrier, and its correlation depends on the frequencies through their difference only. *)
Theorem C89_wideband_link :
  forall srt srtd j1 pu pb ua ba sc al ops a dr z fs d D b s is u iu fr,
  valid_argsort srt -> valid_argsort_desc srtd -> constructed sc -> settled sc al ops a dr z ->
  make_array j1 pu = Ok ua -> make_array j1 pb = Ok ba -> (is < pa_num_ant ba)%nat -> (iu < pa_num_ant ua)%nat ->
  only_phases_vary (sc_dir sc) b s u d D ->
  let c := chan_run sc al (chan_init sc) ops in
  let call ph := chan_call srt srtd sc ua ba al c fs (D ph) in
  exists lsps mask rr vel uo bo bs g los ind pl n1 n2,
    (forall ph, is_ok (call ph)) /\
    (if al then lsp_sampler c (cd_lsp d) = Ok lsps else c_lsp c = Some lsps) /\ c_mask c = Some mask /\
    gen_rays srt (c_st c) mask lsps (cd_rays d) = Ok rr /\
    s_ut_vel (c_st c) = Some vel /\ s_ut_ori (c_st c) = Some uo /\ s_bs_ori (c_st c) = Some bo /\ s_bs_loc (c_st c) = Some bs /\
    s_geo (c_st c) = Some g /\ s_los (c_st c) = Some los /\ s_in (c_st c) = Some ind /\
    (sc_pathloss sc = true -> sample_pathloss (c_st c) = Ok pl) /\
    (forall l, documented_value (sc_env sc) (sc_fc sc) (sc_dir sc) (sc_elev sc) l "numClusters"
                 (Fin (INR (if l then n1 else n2)))) /\
    (t_at ind b u = false -> (los b s u = true -> Rpower 10 (- 6.3) <= l_k (lsps b s u)) ->
     let n := Nat.max n1 n2 in
     let K := l_k (lsps b s u) in
     let gain := (if sc_pathloss sc then Rpower 10 (- pl b s u / 10) else 1) * (if sc_shadow sc then l_sf (lsps b s u) else 1) in
     exists y, rr b s u = Some y /\
       (forall ph o, call ph = Ok o -> exists a tau, tensors_of (sc_dir sc) o b s is u iu (n + 4) a tau) /\
       let up := String.eqb (sc_dir sc) "uplink" in
       let G := if up then swap_gen (down_arrays sc ua ba) else down_arrays sc ua ba in
       let L0 := down_link sc (c_st c) vel uo bo bs g los (cd_dir d) b s u in
       let L := if up then swap_topo L0 else L0 in
       let Y := if up then swap_rays y else y in
       let rx := if up then is else iu in let tx := if up then iu else is in
       forall F E Dm A TAU, fields_of G L Y n F -> uniform_phases n E -> d_path Dm = (n + 4)%nat ->
         (forall ph o, call ph = Ok o -> tensors_of (sc_dir sc) o b s is u iu (n + 4) (A ph) (TAU ph)) ->
         let H k t ph := on_link (sc_dir sc) (fun b r ra x xa => cir_to_ofdm Dm fr (A ph) (TAU ph) false b r ra x xa t k) b s is u iu in
         let h p t ph := on_link (sc_dir sc) (fun b r ra x xa => A ph b r ra x xa p t) b s is u iu in
         exists delays, StronglySorted Rle delays /\ nth 0 delays 0 = 0 /\
         (forall ph p, (p < n + 4)%nat -> on_link (sc_dir sc) (fun b r ra x xa => S_Convert.path_delay (TAU ph) b r ra x xa p) b s is u iu = nth p delays 0) /\
         forall k k' t t', (k < length fr)%nat -> (k' < length fr)%nat ->
           E (fun ph => creal (cnorm2 (H k t ph))) =
             creal (gain * ricean (los b s u) K (cnorm2 (los_ray G L (fun t => INR t / fs) rx tx t)) (scattered_power Y F n rx tx)) /\
           mean_product E (H k t) (H k' t') =
             csumN (n + 4) (fun p => cmul (mean_product E (h p t) (h p t')) (turn ((nth k fr 0 - nth k' fr 0) * nth p delays 0)))).
Proof. exact C89_link_l. Qed.
Print Assumptions C89_wideband_link.

(* a dense urban link without line of sight between vertical omnidirectional antennas: the same mean power on every subcarrier *)
Example C89_example : forall srt srtd j1 fr, valid_argsort srt -> valid_argsort_desc srtd ->
  exists sc a dr z ua ba D E n gain leak A TAU, constructed sc /\ settled sc false [SetTopology a dr z] a dr z /\ uniform_phases n E /\
    0 < gain /\ 0 < leak /\ (exists pu pb, make_array j1 pu = Ok ua /\ make_array j1 pb = Ok ba) /\
    (exists d, only_phases_vary (sc_dir sc) 0 0 0 d D) /\
    let c := chan_run sc false (chan_init sc) [SetTopology a dr z] in
    (forall ph o, chan_call srt srtd sc ua ba false c 1e6 (D ph) = Ok o -> tensors_of (sc_dir sc) o 0 0 0 0 0 (n + 4) (A ph) (TAU ph)) /\
    forall k t, (k < length fr)%nat ->
      E (fun ph => creal (cnorm2 (on_link (sc_dir sc)
           (fun b r ra x xa => cir_to_ofdm (Dims 1 1 1 1 1 (n + 4) 14) fr (A ph) (TAU ph) false b r ra x xa t k) 0 0 0 0 0))) =
      creal (gain * ((cos (27 * PI / 180))² + leak * (sin (27 * PI / 180))²)).
Proof. exact wideband_example_l. Qed.
