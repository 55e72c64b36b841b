(* Property C97: the 2D distance and the 3D distance reported for the links of a topology. *)
From Coq Require Import Reals String List Bool Arith ZArith Lra.
From Verif Require Import M_Base M_Params M_Geometry M_Scenario S_Topology L_Topology M_Lsp M_Channel S_Channel M_TopoGen M_Coeff S_Coeff S_TopoGen
  L_TopoGen L_TopoUse L_Fresh L_RaysEx L_Distances.
Import ListNotations.
Open Scope string_scope.
Open Scope list_scope.
Open Scope R_scope.

(* C97, the exact law for every link of every topology: the reported 3D distance is below the 2D distance exactly when the point at the 2D distance under the elevation angle lies above the satellite's orbit. *)
Theorem C97_exact_law :
  forall sc st a dr st' bs,
  constructed sc -> set_topology sc st a dr = (st', Ok true) -> s_bs_loc st' = Some bs ->
  let h := vz (t_at bs 0%nat 0%nat) in 0 < h ->
  exists d2 g, s_d2d st' = Some d2 /\ s_geo st' = Some g /\
    forall b s u, g_d3d g b s u < d2 b s u <->
      (6371000 + h) ^ 2 < 6371000 ^ 2 + d2 b s u ^ 2 + 2 * 6371000 * d2 b s u * sin (deg_2_rad (sc_elev sc)).
Proof. exact C97_law_l. Qed.
Print Assumptions C97_exact_law.

(* C97, a UT on the ground where the flat geometry of the generator puts the beam centre: the reported 3D distance never exceeds the distance of the two positions, equals it exactly at 90 degrees, and is below the reported 2D distance exactly under the given condition. *)
Theorem C97_centre :
  forall sc st a dr st' ut bs b u,
  constructed sc -> set_topology sc st a dr = (st', Ok true) ->
  s_ut_loc st' = Some ut -> s_bs_loc st' = Some bs ->
  let e := sc_elev sc in let h := vz (t_at bs b 0%nat) in
  vz (t_at bs 0%nat 0%nat) = h -> 0 < h -> vz (t_at ut b u) = 0 ->
  dist_2d (t_at ut b u) (t_at bs b 0%nat) * sin (deg_2_rad e) = h * cos (deg_2_rad e) ->
  exists d2 g, s_d2d st' = Some d2 /\ s_geo st' = Some g /\
    let d := vnorm (vsub (t_at ut b u) (t_at bs b 0%nat)) in
    g_d3d g b 0%nat u <= d /\ (g_d3d g b 0%nat u = d <-> e = 90) /\
    (g_d3d g b 0%nat u < d2 b 0%nat u <->
       2 * 6371000 * (1 - cos (deg_2_rad e)) * sin (deg_2_rad e) ^ 2
       < h * (cos (deg_2_rad e) ^ 2 - sin (deg_2_rad e) ^ 2)).
Proof. exact C97_centre_l. Qed.
Print Assumptions C97_centre.

(* A satellite at 600 km and a UT on the ground 600 km from the point below it meet the hypotheses of C97_centre. *)
Example centre_example : forall dr, exists sc st', constructed sc /\
  set_topology sc (init_state sc) (one_ut (V3 600000 0 0) false None) dr = (st', Ok true) /\
  s_ut_loc st' = Some (t1 (V3 600000 0 0)) /\ s_bs_loc st' = Some (t1 (V3 0 0 600000)) /\
  dist_2d (V3 600000 0 0) (V3 0 0 600000) * sin (deg_2_rad (sc_elev sc)) = 600000 * cos (deg_2_rad (sc_elev sc)).
Proof. exact centre_example_l. Qed.

(* C97, partial (see the refutation below for what is false): when the beam centre with half the inter-site distance added lies closer to the point below the satellite than the satellite's height, the reported 3D distance of every link exceeds the 2D distance. *)
Theorem C97_high_elevation_partial :
  forall sc always c batch num_ut scenario a isd h el zmin zmax vmin vmax gdr t ut uo args dr z,
  constructed sc -> (1 <= batch)%nat ->
  resolved scenario a isd h el zmin zmax vmin vmax -> 0 < isd -> 0 < h -> 0 < el <= 90 -> proper_draws gdr ->
  gen_single_sector_topology batch num_ut scenario a gdr = Ok t -> handed_over t ut uo args ->
  (forall b u u', (b < batch)%nat -> (u < num_ut)%nat -> (u' < num_ut)%nat -> u <> u' ->
     gd_x gdr b u <> gd_x gdr b u' \/ gd_y gdr b u <> gd_y gdr b u') ->
  h * cos (deg_2_rad el) + isd * sin (deg_2_rad el) <= h * sin (deg_2_rad el) ->
  let '(c', r) := chan_set_topology sc always c args dr z in
  r = Ok tt /\ exists d2 g, s_d2d (c_st c') = Some d2 /\ s_geo (c_st c') = Some g /\
    forall b s u, d2 b s u < g_d3d g b s u.
Proof. exact C97_high_l. Qed.
Print Assumptions C97_high_elevation_partial.

(* C97 is false at low elevation angles: up to 20 degrees, from 600 km on, every generated topology makes the reported 3D distance of every link smaller than its 2D distance. *)
Theorem C97_low_elevation_refuted :
  forall sc always c batch num_ut scenario a isd h el zmin zmax vmin vmax gdr t ut uo args dr z,
  constructed sc -> (1 <= batch)%nat ->
  resolved scenario a isd h el zmin zmax vmin vmax -> 0 < isd -> 600000 <= h -> 0 < el <= 20 -> proper_draws gdr ->
  gen_single_sector_topology batch num_ut scenario a gdr = Ok t -> handed_over t ut uo args ->
  (forall b u u', (b < batch)%nat -> (u < num_ut)%nat -> (u' < num_ut)%nat -> u <> u' ->
     gd_x gdr b u <> gd_x gdr b u' \/ gd_y gdr b u <> gd_y gdr b u') ->
  sc_elev sc = el -> isd <= 0.4 * h ->
  let '(c', r) := chan_set_topology sc always c args dr z in
  r = Ok tt /\ exists d2 g, s_d2d (c_st c') = Some d2 /\ s_geo (c_st c') = Some g /\
    forall b s u, g_d3d g b s u < d2 b s u.
Proof. exact C97_low_l. Qed.
Print Assumptions C97_low_elevation_refuted.

(* The suburban defaults at 60 degrees meet the hypotheses of the high elevation case, at 10 degrees those of the refutation. *)
Example high_example : exists sc t ut uo args, constructed sc /\ sc_elev sc = 60 /\
  resolved "sur" (elev_args 60) 5000 600000 60 1.5 1.5 0 0 /\ proper_draws spread_draws /\
  gen_single_sector_topology 2 3 "sur" (elev_args 60) spread_draws = Ok t /\ handed_over t ut uo args /\
  (forall b u u', (b < 2)%nat -> (u < 3)%nat -> (u' < 3)%nat -> u <> u' ->
     gd_x spread_draws b u <> gd_x spread_draws b u' \/ gd_y spread_draws b u <> gd_y spread_draws b u') /\
  600000 * cos (deg_2_rad 60) + 5000 * sin (deg_2_rad 60) <= 600000 * sin (deg_2_rad 60).
Proof. exact high_example_l. Qed.

Example low_example : exists sc t ut uo args, constructed sc /\ sc_elev sc = 10 /\
  resolved "sur" (elev_args 10) 5000 600000 10 1.5 1.5 0 0 /\ proper_draws spread_draws /\
  gen_single_sector_topology 2 3 "sur" (elev_args 10) spread_draws = Ok t /\ handed_over t ut uo args /\
  (forall b u u', (b < 2)%nat -> (u < 3)%nat -> (u' < 3)%nat -> u <> u' ->
     gd_x spread_draws b u <> gd_x spread_draws b u' \/ gd_y spread_draws b u <> gd_y spread_draws b u') /\
  5000 <= 0.4 * 600000.
Proof. exact low_example_l. Qed.
