(* Properties of the channel object: C10, C11, C31-C33, C67, C68. *)
From Coq Require Import Reals String List Bool Arith Lia Lra Permutation Sorting.Sorted.
From Verif Require Import M_Base L_Base M_Params S_Config L_Config M_Geometry M_Pathloss M_Scenario S_Topology L_Fresh L_Topology M_Lsp S_Lsp L_Lsp
  M_Rays L_RaysEx M_Antenna M_Cplx M_Coeff S_Coeff L_Coeff M_Channel S_Channel L_Channel L_Link L_LinkEx L_Paths.
Import ListNotations.
Open Scope string_scope.
Open Scope list_scope.
Open Scope R_scope.

(* C10: with caching, a call uses the parameters sampled by the last topology change and ignores its own LSP draws; it equals a fresh-sampling call fed with that change's draws. *)
Theorem C10_cached_lsps :
  forall srt srtd ua ba sc ops a dr z fs d,
  settled sc false ops a dr z ->
  let c := chan_run sc false (chan_init sc) ops in
  (forall z', chan_call srt srtd sc ua ba false c fs (with_lsp_draws z' d) = chan_call srt srtd sc ua ba false c fs d) /\
  chan_call srt srtd sc ua ba false c fs d = chan_call srt srtd sc ua ba true c fs (with_lsp_draws z d).
Proof. exact C10_cached_l. Qed.
Print Assumptions C10_cached_lsps.

(* C10: calls, failed calls and set_topology calls that move nothing never resample. *)
Theorem C10_kept_until_topology_change :
  forall sc ops after,
  (forall a r, In (a, r) (outcomes sc false (chan_run sc false (chan_init sc) ops) after) -> changes_topology a -> r <> Ok tt) ->
  c_lsp (chan_run sc false (chan_init sc) (ops ++ after)) = c_lsp (chan_run sc false (chan_init sc) ops).
Proof. exact C10_kept_l. Qed.
Print Assumptions C10_kept_until_topology_change.

(* C10: without caching set_topology samples nothing and every call samples parameters from its own draws. *)
Theorem C10_fresh_lsps :
  forall srt srtd ua ba sc ops a dr z fs d,
  settled sc true ops a dr z ->
  let c := chan_run sc true (chan_init sc) ops in
  (forall z', chan_set_topology sc true c a dr z' = chan_set_topology sc true c a dr z) /\
  exists l, lsp_sampler c (cd_lsp d) = Ok l /\
    chan_call srt srtd sc ua ba true c fs d = chan_call srt srtd sc ua ba false (with_lsps c l) fs d.
Proof. exact C10_fresh_l. Qed.
Print Assumptions C10_fresh_lsps.

(* C11: if every set_topology call failed (or none was made) a channel call raises. *)
Theorem C11_raises_before_topology :
  forall srt srtd ua ba sc al ops fs d,
  (forall a r, In (a, r) (outcomes sc al (chan_init sc) ops) -> exists e, r = Err e) ->
  exists e, chan_call srt srtd sc ua ba al (chan_run sc al (chan_init sc) ops) fs d = Err e.
Proof. exact C11_raises_l. Qed.
Print Assumptions C11_raises_before_topology.

(* C11: if at least one set_topology call was made and none failed, a channel call is defined. *)
Theorem C11_defined_after_success :
  forall srt srtd ua ba sc al ops fs d,
  constructed sc ->
  (forall a r, In (a, r) (outcomes sc al (chan_init sc) ops) -> r = Ok tt) -> outcomes sc al (chan_init sc) ops <> [] ->
  exists out, chan_call srt srtd sc ua ba al (chan_run sc al (chan_init sc) ops) fs d = Ok out.
Proof. exact C11_defined_l. Qed.
Print Assumptions C11_defined_after_success.

(* C11, finding: a first call that fails on co-located UTs leaves the locations stored, so set_topology without arguments then reports success although a channel call raises. *)
Theorem C11_success_after_failure_refuted :
  forall sc al (dr : topo_draws) (z : grid (nat -> R)),
  constructed sc -> exists ops r,
  outcomes sc al (chan_init sc) ops = r ++ [(no_args, Ok tt)] /\
  forall srt srtd ua ba fs d, exists e, chan_call srt srtd sc ua ba al (chan_run sc al (chan_init sc) ops) fs d = Err e.
Proof. exact C11_refuted_l. Qed.
Print Assumptions C11_success_after_failure_refuted.

(* C31: receiver-first indexing; every coefficient and delay comes from the rays, LSPs, angles, orientations and velocity of its own link, with the roles exchanged in uplink. *)
Theorem C31_axes :
  forall srt srtd ua ba sc always c fs d out,
  chan_call srt srtd sc ua ba always c fs d = Ok out ->
  exists lsps mask rr vel uo bo bs g los ls pl,
    used_lsps always c d lsps /\ c_mask c = Some mask /\ gen_rays srt (c_st c) mask lsps (cd_rays d) = Ok rr /\
    s_ut_vel (c_st c) = Some vel /\ s_ut_ori (c_st c) = Some uo /\ s_bs_ori (c_st c) = Some bo /\
    s_bs_loc (c_st c) = Some bs /\ s_geo (c_st c) = Some g /\ s_los (c_st c) = Some los /\ s_lsp (c_st c) = Some ls /\
    t_num bs = 1%nat /\ (sc_pathloss sc = true -> sample_pathloss (c_st c) = Ok pl) /\
    forall b s u,
      let L := down_link sc (c_st c) vel uo bo bs g los (cd_dir d) b s u in
      let G := down_arrays sc ua ba in
      let K := l_k (lsps b s u) in
      let cDS := lp_cDS (ls_col ls (los b s u)) * 1e-9 in
      let factor := (if sc_pathloss sc then Rpower 10 (- pl b s u / 20) else 1)
                    * (if sc_shadow sc then sqrt (l_sf (lsps b s u)) else 1) in
      match rr b s u with
      | None => forall is iu p t, link_coefficient (sc_dir sc) out b s is u iu p t = None /\
                                  link_delay (sc_dir sc) out b s u p = None
      | Some y =>
          let down := cir srt srtd G L K y fs cDS (cd_phase d b s u) in
          let up := cir srt srtd (swap_gen G) (swap_topo L) K (swap_rays y) fs cDS (cd_phase d b u s) in
          forall is iu p t,
            link_delay (sc_dir sc) out b s u p = nth_error (snd (if String.eqb (sc_dir sc) "uplink" then up else down)) p /\
            link_coefficient (sc_dir sc) out b s is u iu p t =
              option_map (fun x => cmul x (creal factor))
                (if String.eqb (sc_dir sc) "uplink" then option_map (fun h : coeff => h is iu t) (nth_error (fst up) p)
                 else option_map (fun h : coeff => h iu is t) (nth_error (fst down) p))
      end.
Proof. exact C31_axes_l. Qed.
Print Assumptions C31_axes.

(* C31: below 600 km the uplink output is the downlink output with link ends exchanged (phases exchanged accordingly). *)
Theorem C31_duality :
  forall srt srtd ua ba sc always c fs d down bs,
  chan_call srt srtd (with_direction "downlink" sc) ua ba always c fs d = Ok down ->
  s_bs_loc (c_st c) = Some bs -> vz (t_at bs 0%nat 0%nat) < 600000 ->
  exists up, chan_call srt srtd (with_direction "uplink" sc) ua ba always c fs (exchanged_phases d) = Ok up /\
  forall b s is u iu p t,
    o_h up b s is u iu p t = o_h down b u iu s is p t /\ o_delays up b s u p = o_delays down b u s p.
Proof. exact C31_duality_l. Qed.
Print Assumptions C31_duality.

(* C32: one real factor per link for any switch setting; 1 with both disabled. *)
Theorem C32_scaling :
  forall srt srtd ua ba sc p f always c fs d out,
  chan_call srt srtd (with_switches p f sc) ua ba always c fs d = Ok out ->
  exists out0 lsps pl,
    chan_call srt srtd (with_switches false false sc) ua ba always c fs d = Ok out0 /\
    (if always then lsp_sampler c (cd_lsp d) = Ok lsps else c_lsp c = Some lsps) /\
    (p = true -> sample_pathloss (c_st c) = Ok pl) /\
    forall b s u, exists x : R,
      x = (if p then Rpower 10 (- pl b s u / 20) else 1) * (if f then sqrt (l_sf (lsps b s u)) else 1) /\
      (p = false -> f = false -> x = 1) /\
      forall is iu q t,
        link_coefficient (sc_dir sc) out b s is u iu q t =
          option_map (fun h => cmul h (creal x)) (link_coefficient (sc_dir sc) out0 b s is u iu q t) /\
        link_delay (sc_dir sc) out b s u q = link_delay (sc_dir sc) out0 b s u q.
Proof. exact C32_l. Qed.
Print Assumptions C32_scaling.

(* C33, part that holds: with shadow fading disabled the sampled SF parameter has no effect. *)
Theorem C33_sampled_sf_unused_partial :
  forall srt srtd ua ba sc c fs d f,
  sc_shadow sc = false ->
  chan_call srt srtd sc ua ba false (with_sf f c) fs d = chan_call srt srtd sc ua ba false c fs d.
Proof. exact C33_partial_l. Qed.
Print Assumptions C33_sampled_sf_unused_partial.

(* C33: with shadow fading disabled the path loss still scales every coefficient by the normal draws times the documented sigmaSF. *)
Theorem C33_hidden_shadow_fading :
  forall srt srtd ua ba sc al c a dr z c1 fs d o1,
  constructed sc ->
  sc_pathloss sc = true -> sc_shadow sc = false -> changes_topology a ->
  chan_set_topology sc al c a dr z = (c1, Ok tt) -> chan_call srt srtd sc ua ba al c1 fs d = Ok o1 ->
  forall zl zn, exists c2 o2 los sl sn,
    chan_set_topology sc al c a (with_sf_draws zl zn dr) z = (c2, Ok tt) /\ chan_call srt srtd sc ua ba al c2 fs d = Ok o2 /\
    s_los (c_st c1) = Some los /\
    (let doc := documented_value (sc_env sc) (sc_fc sc) (sc_dir sc) (sc_elev sc) in
     doc true "sigmaSF" (Fin sl) /\ doc false "sigmaSF" (Fin sn) /\ 0 < sl /\ 0 < sn) /\
    forall b s is u iu p t,
      link_coefficient (sc_dir sc) o2 b s is u iu p t =
      option_map (fun h => cmul h (creal (Rpower 10 (- (if los b s u then sl * (zl b s u - dr_z_los dr b s u)
                                                       else sn * (zn b s u - dr_z_nlos dr b s u)) / 20))))
        (link_coefficient (sc_dir sc) o1 b s is u iu p t).
Proof. exact C33_hidden_l. Qed.
Print Assumptions C33_hidden_shadow_fading.

(* C33, finding: same topology, LoS states and call, different gain. *)
Theorem C33_deterministic_gain_refuted :
  forall srt srtd sc,
  valid_argsort srt -> valid_argsort_desc srtd -> constructed sc ->
  sc_pathloss sc = true -> sc_shadow sc = false ->
  exists a z d fs dr dr' c1 c2 o1 o2 los,
    dr_los dr' = dr_los dr /\ dr_indoor dr' = dr_indoor dr /\
    chan_set_topology sc false (chan_init sc) a dr z = (c1, Ok tt) /\ chan_set_topology sc false (chan_init sc) a dr' z = (c2, Ok tt) /\
    s_los (c_st c1) = Some los /\ s_los (c_st c2) = Some los /\
    chan_call srt srtd sc omni_array omni_array false c1 fs d = Ok o1 /\
    chan_call srt srtd sc omni_array omni_array false c2 fs d = Ok o2 /\
    exists h1 h2, link_coefficient (sc_dir sc) o1 0 0 0 0 0 0 0 = Some h1 /\ link_coefficient (sc_dir sc) o2 0 0 0 0 0 0 0 = Some h2 /\
      cnorm2 h1 <> 0 /\ cnorm2 h2 < cnorm2 h1.
Proof. exact C33_refuted_l. Qed.
Print Assumptions C33_deterministic_gain_refuted.

(* C67: after a topology change every outdoor link has numClusters+4 paths, with ascending delays starting at 0. *)
Theorem C67_paths :
  forall srt srtd ua ba sc al ops a dr z fs d,
  valid_argsort srt -> valid_argsort_desc srtd -> constructed sc ->
  settled sc al ops a dr z ->
  let c := chan_run sc al (chan_init sc) ops in
  exists out lsps ind los n1 n2,
    chan_call srt srtd sc ua ba al c fs d = Ok out /\
    (if al then lsp_sampler c (cd_lsp d) = Ok lsps else c_lsp c = Some lsps) /\
    s_in (c_st c) = Some ind /\ s_los (c_st c) = Some los /\
    (forall l, documented_value (sc_env sc) (sc_fc sc) (sc_dir sc) (sc_elev sc) l "numClusters"
                 (Fin (INR (if l then n1 else n2)))) /\
    forall b s u, t_at ind b u = false -> (los b s u = true -> Rpower 10 (- 6.3) <= l_k (lsps b s u)) ->
      exists D, length D = (Nat.max n1 n2 + 4)%nat /\ StronglySorted Rle D /\ nth 0 D 0 = 0 /\
        forall p, link_delay (sc_dir sc) out b s u p = nth_error D p /\
          forall is iu t, link_coefficient (sc_dir sc) out b s is u iu p t = None <-> (Nat.max n1 n2 + 4 <= p)%nat.
Proof. exact C67_l. Qed.
Print Assumptions C67_paths.

(* C68: a topology change succeeds exactly if no two UTs of one example in the same propagation state share their horizontal position. *)
Theorem C68_colocated_uts :
  forall sc always c a dr z st,
  constructed sc -> set_topology sc (c_st c) (channel_args a) dr = (st, Ok true) ->
  exists ut ind los, s_ut_loc st = Some ut /\ s_in st = Some ind /\ s_los st = Some los /\
  (snd (chan_set_topology sc always c a dr z) = Ok tt <->
   forall b u u', (b < t_batch ut)%nat -> (u < t_num ut)%nat -> (u' < t_num ut)%nat -> u <> u' ->
     state_of (t_at ind b u) (los b 0%nat u) = state_of (t_at ind b u') (los b 0%nat u') ->
     vx (t_at ut b u) <> vx (t_at ut b u') \/ vy (t_at ut b u) <> vy (t_at ut b u')).
Proof. exact C68_l. Qed.
Print Assumptions C68_colocated_uts.

(* Histories meeting the hypotheses above: a topology with two UTs 100 m apart, channel calls and a set_topology
   call without arguments; two co-located UTs are refused. *)
Example channel_example : exists sc, constructed sc /\
  (forall al dr z fs d, settled sc al [SetTopology (two_uts 100) dr z; Call fs d; SetTopology no_args dr z; Call fs d] (two_uts 100) dr z) /\
  (forall al dr z, outcomes sc al (chan_init sc) [SetTopology (two_uts 100) dr z; SetTopology no_args dr z] =
     [(two_uts 100, Ok tt); (no_args, Ok tt)]) /\
  (forall al dr z, exists e, outcomes sc al (chan_init sc) [SetTopology (two_uts 0) dr z] = [(two_uts 0, Err e)]).
Proof. exact channel_example_l. Qed.

(* A call with a non-zero coefficient on a line-of-sight link. *)
Example channel_call_example : exists sc, constructed sc /\ exists z d c1 o1 los h,
    chan_set_topology sc false (chan_init sc) (one_ut (V3 600000 0 0) false (Some true)) no_draws z = (c1, Ok tt) /\
    s_los (c_st c1) = Some los /\ los 0%nat 0%nat 0%nat = true /\
    chan_call argsort argsort_desc sc omni_array omni_array false c1 1e6 d = Ok o1 /\
    link_coefficient (sc_dir sc) o1 0 0 0 0 0 0 0 = Some h /\ h <> c0.
Proof.
  destruct example_constructed as (sc & Hc & _). exists sc. split; [exact Hc|].
  apply (omni_link argsort argsort_desc sc argsort_valid argsort_desc_valid Hc).
Qed.
