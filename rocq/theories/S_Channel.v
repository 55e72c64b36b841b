(* Specification vocabulary for the channel object (C10, C11, C31-C33, C67). *)
From Coq Require Import Reals String List Bool Arith.
From Verif Require Import M_Base M_Params M_Geometry M_Scenario M_Lsp M_Rays M_Antenna M_Cplx M_Coeff M_Channel.
Import ListNotations.
Open Scope string_scope.
Open Scope list_scope.
Open Scope R_scope.

(* the set_topology calls of a history with their outcomes *)
Fixpoint outcomes (sc : scenario) (always : bool) (c : chan) (ops : list chan_op) : list (topo_args * res unit) :=
  match ops with
  | [] => []
  | SetTopology a dr z :: rest =>
      (a, snd (chan_set_topology sc always c a dr z)) :: outcomes sc always (chan_step sc always c (SetTopology a dr z)) rest
  | Call fs d :: rest => outcomes sc always c rest
  end.

(* an argument that moves a node or changes an indoor or LoS state is given *)
Definition changes_topology (a : topo_args) : Prop :=
  a_ut_loc a <> None \/ a_bs_loc a <> None \/ a_in a <> None \/ a_los a <> None.

(* ops ends with a successful topology change, followed only by channel calls and set_topology calls that
   change no location, indoor or LoS state *)
Definition settled (sc : scenario) (always : bool) (ops : list chan_op) (a : topo_args) (dr : topo_draws)
    (z : nat -> nat -> nat -> nat -> R) : Prop :=
  exists before after, ops = before ++ SetTopology a dr z :: after /\ changes_topology a /\
    snd (chan_set_topology sc always (chan_run sc always (chan_init sc) before) a dr z) = Ok tt /\
    forall a' dr' z', In (SetTopology a' dr' z') after -> ~ changes_topology a'.

(* same configuration with the link direction or the two switches replaced *)
Definition with_direction (dir : string) (sc : scenario) : scenario :=
  {| sc_env := sc_env sc; sc_dir := dir; sc_fc := sc_fc sc; sc_lambda := sc_lambda sc; sc_elev := sc_elev sc;
     sc_pathloss := sc_pathloss sc; sc_shadow := sc_shadow sc; sc_doppler := sc_doppler sc;
     sc_plos := sc_plos sc; sc_pnlos := sc_pnlos sc |}.
Definition with_switches (pathloss shadow : bool) (sc : scenario) : scenario :=
  {| sc_env := sc_env sc; sc_dir := sc_dir sc; sc_fc := sc_fc sc; sc_lambda := sc_lambda sc; sc_elev := sc_elev sc;
     sc_pathloss := pathloss; sc_shadow := shadow; sc_doppler := sc_doppler sc;
     sc_plos := sc_plos sc; sc_pnlos := sc_pnlos sc |}.

(* the same draws with another part replaced *)
Definition with_lsp_draws (z : nat -> nat -> nat -> nat -> R) (d : call_draws) : call_draws :=
  {| cd_lsp := z; cd_rays := cd_rays d; cd_dir := cd_dir d; cd_phase := cd_phase d |}.
(* the phases seen when the two ends of every link are exchanged *)
Definition exchanged_phases (d : call_draws) : call_draws :=
  {| cd_lsp := cd_lsp d; cd_rays := cd_rays d; cd_dir := cd_dir d;
     cd_phase := fun b tx rx c r k => cd_phase d b rx tx c r (match k with 1 => 2 | 2 => 1 | _ => k end)%nat |}.

(* the coefficient between antenna is of satellite s and antenna iu of UT u: receiver index first *)
Definition link_coefficient (dir : string) (o : output) (b s is u iu p t : nat) : option cplx :=
  if String.eqb dir "uplink" then o_h o b s is u iu p t else o_h o b u iu s is p t.
Definition link_delay (dir : string) (o : output) (b s u p : nat) : option R :=
  if String.eqb dir "uplink" then o_delays o b s u p else o_delays o b u s p.

(* the link from satellite s down to UT u: angles and distance of that very link, the UT moves *)
Definition down_link (sc : scenario) (st : state) (vel uo bo bs : tens vec3) (g : geo) (los : grid bool)
    (dir : nat -> R) (b s u : nat) : ltopo :=
  {| lt_vel := t_at vel b u; lt_moving_rx := true;
     lt_aoa := deg_2_rad (g_aoa g b s u); lt_aod := deg_2_rad (g_aod g b s u);
     lt_zoa := deg_2_rad (g_zoa g b s u); lt_zod := deg_2_rad (g_zod g b s u);
     lt_los := los b s u; lt_d3d := g_d3d g b s u;
     lt_tx_ori := t_at bo b s; lt_rx_ori := t_at uo b u;
     lt_bs_height := vz (t_at bs 0%nat 0%nat); lt_doppler := s_doppler st;
     lt_sat_speed := topology_sat_speed (vz (t_at bs 0%nat 0%nat)) (sc_elev sc) (dir b) |}.
Definition down_arrays (sc : scenario) (ut_array bs_array : panel_array) : cgen :=
  {| cg_fc := sc_fc sc; cg_tx := bs_array; cg_rx := ut_array; cg_sub := true |}.

(* other draws for the shadow fading terms of the basic path loss *)
Definition with_sf_draws (zl zn : grid R) (dr : topo_draws) : topo_draws :=
  {| dr_indoor := dr_indoor dr; dr_los := dr_los dr; dr_z_los := zl; dr_z_nlos := zn |}.
(* other shadow fading values among the cached large-scale parameters *)
Definition with_sf (f : grid R) (c : chan) : chan :=
  {| c_st := c_st c; c_cross := c_cross c; c_spatial := c_spatial c; c_mask := c_mask c;
     c_lsp := option_map (fun l b s u =>
       {| l_ds := l_ds (l b s u); l_asd := l_asd (l b s u); l_asa := l_asa (l b s u); l_sf := f b s u;
          l_k := l_k (l b s u); l_zsa := l_zsa (l b s u); l_zsd := l_zsd (l b s u) |}) (c_lsp c) |}.
