(* Property C98: the positions of generated UTs in single precision. *)
From Coq Require Import Reals String List Bool Arith ZArith Lra.
From Verif Require Import M_Base M_Params M_Geometry M_Scenario S_Topology L_Topology M_Lsp M_Channel S_Channel M_TopoGen M_Coeff S_Coeff S_TopoGen
  L_TopoGen L_TopoUse M_Float M_Position L_Distances L_Position.
Import ListNotations.
Open Scope string_scope.
Open Scope list_scope.
Open Scope R_scope.

(* C98, up to 1200 km height and from 10 degrees on: every stored coordinate is within 0.25 m of the exact one, every distance between two UTs within 0.75 m, and UTs farther apart than that stay apart. *)
Theorem C98_low_orbit :
  forall batch num_ut scenario a isd h el zmin zmax vmin vmax gdr t b u,
  resolved scenario a isd h el zmin zmax vmin vmax -> 0 <= isd <= 1e6 -> 0 < h <= 1.2e6 -> 10 <= el <= 90 -> proper_draws gdr ->
  gen_single_sector_topology batch num_ut scenario a gdr = Ok t ->
  exists v w, t_at (u_loc (tp_uts t)) b u = Some v /\ t_at (u_loc (tp_uts (stored_in 24 t))) b u = Some w /\
    Rabs (vx w - vx v) <= 0.25 /\ Rabs (vy w - vy v) <= 0.25 /\
    forall u', exists v' w', t_at (u_loc (tp_uts t)) b u' = Some v' /\ t_at (u_loc (tp_uts (stored_in 24 t))) b u' = Some w' /\
      Rabs (dist_2d w w' - dist_2d v v') <= 0.75 /\ (0.75 < dist_2d v v' -> vx w <> vx w' \/ vy w <> vy w').
Proof. exact C98_low_orbit_l. Qed.
Print Assumptions C98_low_orbit.

(* The suburban defaults at 10 degrees. *)
Example low_orbit_example : resolved "sur" (elev_args 10) 5000 600000 10 1.5 1.5 0 0 /\ proper_draws spread_draws /\
  exists t, gen_single_sector_topology 2 3 "sur" (elev_args 10) spread_draws = Ok t.
Proof.
  split; [apply elev_resolved|]. split; [apply spread_proper|].
  destruct low_example_l as (sc & t & ut & uo & args & _ & _ & _ & _ & G & _). exists t. exact G.
Qed.

(* C98 is false for high orbits: whenever the beam centre has an x coordinate from 2^26 + 4 m to 2^27 - 12 m, UTs drawn 7 m apart are stored at the same point, and set_topology with a given LoS state refuses the generated topology. *)
Theorem C98_geostationary_refuted :
  forall sc al c scenario a isd h el zmin zmax vmin vmax base,
  constructed sc -> resolved scenario a isd h el zmin zmax vmin vmax -> 24 <= isd -> 0 < h -> 0 < el <= 90 -> 0 <= base < 1 ->
  67108868 <= base * (h * cos (deg_2_rad el) / sin (deg_2_rad el)) <= 134217716 ->
  exists gdr t v w, proper_draws gdr /\ gd_base gdr = base /\ gen_single_sector_topology 1 2 scenario a gdr = Ok t /\
    t_at (u_loc (tp_uts t)) 0%nat 0%nat = Some v /\ t_at (u_loc (tp_uts t)) 0%nat 1%nat = Some w /\ dist_2d v w = 7 /\
    forall ut uo args l dr z, handed_over (stored_in 24 t) ut uo args -> a_los args = Some l ->
      snd (chan_set_topology sc al c args dr z) <> Ok tt.
Proof. exact C98_geostationary_l. Qed.
Print Assumptions C98_geostationary_refuted.

(* Dense urban defaults with a geostationary satellite at 20 degrees: a beam centre in the range, and arguments for set_topology. *)
Example geo_example : resolved "dur" geo_args 200 35786000 20 1.5 1.5 0 0 /\ exists base, 0 <= base < 1 /\
  67108868 <= base * (35786000 * cos (deg_2_rad 20) / sin (deg_2_rad 20)) <= 134217716 /\
  forall gdr t, proper_draws gdr -> gd_base gdr = base -> gen_single_sector_topology 1 2 "dur" geo_args gdr = Ok t ->
  exists ut uo args, handed_over (stored_in 24 t) ut uo args /\ a_los args = Some true.
Proof. exact (conj geo_resolved geo_example_l). Qed.
