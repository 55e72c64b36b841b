(* Specification: the time axis of a link. *)
From Coq Require Import Reals String List Bool Arith.
From Verif Require Import M_Base M_Params M_Geometry M_Pathloss M_Scenario M_Channel S_Isolation.
Open Scope R_scope.

(* the same scenario object with the given Doppler switch *)
Definition with_doppler (f : bool) (sc : scenario) : scenario :=
  {| sc_env := sc_env sc; sc_dir := sc_dir sc; sc_fc := sc_fc sc; sc_lambda := sc_lambda sc; sc_elev := sc_elev sc; sc_pathloss := sc_pathloss sc;
     sc_shadow := sc_shadow sc; sc_doppler := f; sc_plos := sc_plos sc; sc_pnlos := sc_pnlos sc |}.

(* a state with its velocities forgotten, draws with the directions of the orbits forgotten *)
Definition without_velocity (st : state) : state :=
  {| s_ut_loc := s_ut_loc st; s_bs_loc := s_bs_loc st; s_ut_ori := s_ut_ori st; s_bs_ori := s_bs_ori st; s_ut_vel := None;
     s_in := s_in st; s_req_los := s_req_los st; s_weather := s_weather st; s_doppler := s_doppler st;
     s_d2d := s_d2d st; s_geo := s_geo st; s_ind := s_ind st; s_los := s_los st; s_lsp := s_lsp st; s_pl := s_pl st |}.
Definition undirected (d : call_draws) : call_draws :=
  {| cd_lsp := cd_lsp d; cd_rays := cd_rays d; cd_dir := fun _ => 0; cd_phase := cd_phase d |}.

(* speed at which a satellite at altitude h, on an orbit in direction w, comes closer; from 600 km on and with Doppler enabled *)
Definition closing_speed (sc : scenario) (h w : R) : R :=
  if Rle_dec 600000 h then
    if sc_doppler sc then satellite_speed h * cos (sc_elev sc / 180 * PI) * cos w else 0
  else 0.
(* metres to radians at the carrier frequency *)
Definition carrier_phase (sc : scenario) (x : R) : R := 2 * PI * sc_fc sc * x / 299792458.
