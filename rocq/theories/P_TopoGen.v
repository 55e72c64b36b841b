(* Properties of the topology generators: C44-C48, C69, C70, C85. *)
From Coq Require Import Reals String List Bool Arith ZArith Lra.
From Verif Require Import M_Base M_Params M_Geometry M_Scenario S_Topology L_Topology M_Lsp M_Channel S_Channel M_TopoGen M_Coeff S_Coeff S_TopoGen
  L_TopoGen L_TopoUse.
Import ListNotations.
Open Scope string_scope.
Open Scope list_scope.
Open Scope R_scope.

(* C44: one beam centre for the whole batch realises the elevation and height; every UT lies within half the inter-site distance of it along both axes, in the height range, outdoors, moving horizontally with a speed in the range. *)
Theorem C44_sector_geometry :
  forall batch num_ut scenario a isd h el zmin zmax vmin vmax dr,
  resolved scenario a isd h el zmin zmax vmin vmax ->
  0 <= isd -> 0 < h -> 0 < el <= 90 -> zmin <= zmax -> 0 <= vmin <= vmax -> proper_draws dr ->
  exists t cx cy,
    gen_single_sector_topology batch num_ut scenario a dr = Ok t /\
    t_batch (tp_bs_loc t) = batch /\ t_num (tp_bs_loc t) = 1%nat /\
    t_batch (u_loc (tp_uts t)) = batch /\ t_num (u_loc (tp_uts t)) = num_ut /\
    (* the satellite is above the origin and seen from the beam centre under the elevation angle *)
    (forall b s, t_at (tp_bs_loc t) b s = V3 0 0 h) /\
    h * cos (deg_2_rad el) = sqrt (cx * cx + cy * cy) * sin (deg_2_rad el) /\
    (forall b u, exists x y z, t_at (u_loc (tp_uts t)) b u = Some (V3 x y z) /\
       Rabs (x - cx) <= isd / 2 /\ Rabs (y - cy) <= isd / 2 /\ zmin <= z <= zmax /\
       t_at (u_in (tp_uts t)) b u = false /\
       vz (t_at (u_vel (tp_uts t)) b u) = 0 /\ vmin <= vnorm (t_at (u_vel (tp_uts t)) b u) <= vmax).
Proof. exact C44_l. Qed.
Print Assumptions C44_sector_geometry.

(* C45: the axis of every generated UT has the requested elevation; it points to the satellite's azimuth if the UT has x >= 0, exactly away from it if x < 0, and is NaN for a UT exactly below the satellite. *)
Theorem C45_boresight_partial :
  forall batch num_ut scenario a isd h el zmin zmax vmin vmax dr t b u ut,
  resolved scenario a isd h el zmin zmax vmin vmax ->
  0 < h -> 0 < el <= 90 -> proper_draws dr ->
  gen_single_sector_topology batch num_ut scenario a dr = Ok t ->
  t_at (u_loc (tp_uts t)) b u = Some ut ->
  let bs := t_at (tp_bs_loc t) b 0%nat in
  (* exactly below the satellite the orientation is NaN *)
  (t_at (u_orient (tp_uts t)) b u = None <-> vx ut = vx bs /\ vy ut = vy bs) /\
  (forall o, t_at (u_orient (tp_uts t)) b u = Some o ->
    vz (boresight o) = sin (deg_2_rad el) /\
    (0 <= vx ut -> dist_2d ut bs * vx (boresight o) = cos (deg_2_rad el) * (vx bs - vx ut) /\
                   dist_2d ut bs * vy (boresight o) = cos (deg_2_rad el) * (vy bs - vy ut)) /\
    (vx ut < 0 -> dist_2d ut bs * vx (boresight o) = - (cos (deg_2_rad el) * (vx bs - vx ut)) /\
                  dist_2d ut bs * vy (boresight o) = - (cos (deg_2_rad el) * (vy bs - vy ut)))).
Proof. exact C45_l. Qed.
Print Assumptions C45_boresight_partial.

(* C45: all generated UTs have a positive x coordinate when the beam centre is farther along x than half the inter-site distance. *)
Theorem C45_boresight_in_front :
  forall batch num_ut scenario a isd h el zmin zmax vmin vmax dr t b u ut,
  resolved scenario a isd h el zmin zmax vmin vmax ->
  0 <= isd -> 0 < h -> 0 < el <= 90 -> proper_draws dr ->
  isd / 2 < gd_base dr * (h * cos (deg_2_rad el) / sin (deg_2_rad el)) ->
  gen_single_sector_topology batch num_ut scenario a dr = Ok t ->
  t_at (u_loc (tp_uts t)) b u = Some ut -> 0 < vx ut.
Proof. exact C45_front_l. Qed.
Print Assumptions C45_boresight_in_front.

(* C45 is false in general: with the suburban defaults a UT can be oriented away from the satellite. *)
Theorem C45_boresight_refuted :
  exists scenario a dr t ut o, proper_draws dr /\
  gen_single_sector_topology 1 1 scenario a dr = Ok t /\
  t_at (u_loc (tp_uts t)) 0%nat 0%nat = Some ut /\ t_at (u_orient (tp_uts t)) 0%nat 0%nat = Some o /\
  let bs := t_at (tp_bs_loc t) 0%nat 0%nat in
  (vx bs - vx ut) * vx (boresight o) + (vy bs - vy ut) * vy (boresight o) < 0.
Proof. exact C45_refuted_l. Qed.
Print Assumptions C45_boresight_refuted.

(* C46 is false: the interferer generator raises for all arguments; NameError for every accepted scenario. *)
Theorem C46_interferers_refuted :
  forall batch num_ut num_int scenario d isd h zmin zmax pin vmin vmax,
  exists e, gen_single_sector_topology_interferers batch num_ut num_int scenario d isd h zmin zmax pin vmin vmax = Err e /\
    ((exists s, default_isd scenario s) -> e = NameError "dtype").
Proof. exact C46_l. Qed.
Print Assumptions C46_interferers_refuted.

(* C47: every given value is returned, every other one is the documented default, and exactly the three scenarios are accepted. *)
Theorem C47_scenario_parameters :
  forall scenario a,
  ((forall d, ~ default_isd scenario d) ->
     exists m, set_3gpp_scenario_parameters scenario a = Err (AssertionError m)) /\
  (forall isd h el zmin zmax vmin vmax, resolved scenario a isd h el zmin zmax vmin vmax ->
     forall pin, resolves (ga_indoor a) 0 pin ->
     set_3gpp_scenario_parameters scenario a =
       Ok {| gp_isd := isd; gp_height := h; gp_elev := el; gp_min_h := zmin; gp_max_h := zmax;
             gp_indoor := pin; gp_min_v := vmin; gp_max_v := vmax |}) /\
  (forall p, set_3gpp_scenario_parameters scenario a = Ok p ->
     resolved scenario a (gp_isd p) (gp_height p) (gp_elev p) (gp_min_h p) (gp_max_h p) (gp_min_v p) (gp_max_v p) /\
     resolves (ga_indoor a) 0 (gp_indoor p)).
Proof. exact C47_l. Qed.
Print Assumptions C47_scenario_parameters.

(* The hypotheses of C44, C45 and C70 hold together: suburban defaults at 45 degrees, 2 batch examples of 3 UTs. *)
Example generator_example : resolved "sur" elev45 5000 600000 45 1.5 1.5 0 0 /\ proper_draws spread_draws /\
  5000 / 2 < gd_base spread_draws * (600000 * cos (deg_2_rad 45) / sin (deg_2_rad 45)) /\
  (exists t ut uo args, gen_single_sector_topology 2 3 "sur" elev45 spread_draws = Ok t /\ handed_over t ut uo args) /\
  (forall b u u', u <> u' -> gd_x spread_draws b u <> gd_x spread_draws b u' \/ gd_y spread_draws b u <> gd_y spread_draws b u') /\
  (exists sc, constructed sc).
Proof.
  split; [exact elev45_resolved|]. split; [exact spread_proper|]. split; [exact elev45_front|].
  split; [exact handed_over_example|]. split; [intros b u u' N; left; exact (spread_distinct u u' N)|].
  destruct example_constructed as (sc & H & _). exists sc; exact H.
Qed.

(* C48: relocation keeps distances to the centre and within a sector, maps the origin to the centre, turns by 120 degrees per sector and has period 3 in the sector index. *)
Theorem C48_relocation :
  forall loc sector cell b u,
  (* distance to the cell centre *)
  dist2 (relocate_uts loc sector cell b u) (cell b u) = dist2 (loc b u) (0, 0) /\
  (* mutual distances within one sector of one cell *)
  (forall v, sector b v = sector b u -> cell b v = cell b u ->
     dist2 (relocate_uts loc sector cell b u) (relocate_uts loc sector cell b v) = dist2 (loc b u) (loc b v)) /\
  (* a UT at the origin goes to the centre *)
  (loc b u = (0, 0) -> relocate_uts loc sector cell b u = cell b u) /\
  (* each sector is the previous one turned by 120 degrees about the centre *)
  (forall k sector', sector' b u = (sector b u + k)%Z ->
     let p := relocate_uts loc sector cell b u in
     let q := relocate_uts loc sector' cell b u in
     let a := deg_2_rad (120 * IZR k) in
     q = (cos a * (fst p - fst (cell b u)) - sin a * (snd p - snd (cell b u)) + fst (cell b u),
          sin a * (fst p - fst (cell b u)) + cos a * (snd p - snd (cell b u)) + snd (cell b u))) /\
  (forall sector' k, sector' b u = (sector b u + 3 * k)%Z ->
     relocate_uts loc sector' cell b u = relocate_uts loc sector cell b u).
Proof. exact C48_l. Qed.
Print Assumptions C48_relocation.

Example relocation_example : relocate_uts (fun _ u => (INR u, 0)) (fun _ _ => 0%Z) (fun _ _ => (3, 4)) 0 1 = (1 + 3, 0 + 4).
Proof.
  unfold relocate_uts, relocate, sector_angle. cbn [fst snd INR].
  replace (0 * 2 * PI / 3) with 0 by field. rewrite cos_0, sin_0. f_equal; ring.
Qed.

(* C69: the satellite of a generated topology faces straight down. *)
Theorem C69_satellite_faces_down :
  forall batch num_ut scenario a dr t b s,
  gen_single_sector_topology batch num_ut scenario a dr = Ok t ->
  t_batch (tp_bs_orient t) = batch /\ t_num (tp_bs_orient t) = 1%nat /\
  boresight (t_at (tp_bs_orient t) b s) = V3 0 0 (-1).
Proof. exact C69_l. Qed.
Print Assumptions C69_satellite_faces_down.

(* C70: every channel object accepts a generated topology with distinct UT positions, and the link distance is the slant range at the generated height under the scenario's elevation angle. *)
Theorem C70_generated_topology_accepted :
  forall sc always c batch num_ut scenario a isd h el zmin zmax vmin vmax gdr t ut uo args dr z,
  constructed sc -> (1 <= batch)%nat ->
  resolved scenario a isd h el zmin zmax vmin vmax -> 0 < isd -> 0 < h -> 0 < el <= 90 -> proper_draws gdr ->
  gen_single_sector_topology batch num_ut scenario a gdr = Ok t -> handed_over t ut uo args ->
  (forall b u u', (b < batch)%nat -> (u < num_ut)%nat -> (u' < num_ut)%nat -> u <> u' ->
     gd_x gdr b u <> gd_x gdr b u' \/ gd_y gdr b u <> gd_y gdr b u') ->
  let '(c', r) := chan_set_topology sc always c args dr z in
  r = Ok tt /\
  exists g, s_geo (c_st c') = Some g /\ forall b s u, g_d3d g b s u = slant_range (sc_elev sc) h.
Proof. exact C70_l. Qed.
Print Assumptions C70_generated_topology_accepted.

(* C85: the UT drop over a sector lies around the beam centre moved to the cell centre; the drop over a cell turns each UT by 120 degrees times its own drawn sector about its own cell centre, leaves everything else unchanged and computes the bearing from the final position. *)
Theorem C85_cell_drop :
  forall batch num_ut cell p dr,
  0 <= gp_isd p -> 0 < gp_height p -> 0 < gp_elev p <= 90 -> gp_min_h p <= gp_max_h p ->
  0 <= gp_min_v p <= gp_max_v p -> proper_draws dr ->
  exists us ws cx cy,
    generate_uts_topology batch num_ut "sector" cell p dr = Ok us /\
    generate_uts_topology batch num_ut "cell" cell p dr = Ok ws /\
    t_batch (u_loc us) = batch /\ t_num (u_loc us) = num_ut /\
    t_batch (u_loc ws) = batch /\ t_num (u_loc ws) = num_ut /\
    gp_height p * cos (gp_elev p * PI / 180) = sqrt (cx * cx + cy * cy) * sin (gp_elev p * PI / 180) /\
    (forall b u, exists x y xc yc z,
       (* the sector drop: around the beam centre, moved to the cell centre *)
       t_at (u_loc us) b u = Some (V3 x y z) /\
       Rabs (x - fst (cell b u) - cx) <= gp_isd p / 2 /\ Rabs (y - snd (cell b u) - cy) <= gp_isd p / 2 /\
       gp_min_h p <= z <= gp_max_h p /\
       (* the cell drop: the same point turned into the UT's own drawn sector about its own cell centre *)
       t_at (u_loc ws) b u = Some (V3 xc yc z) /\
       turned_about (cell b u) (120 * IZR (gd_sector dr b u)) (x, y) (xc, yc) /\
       (* everything but position and bearing is the same *)
       t_at (u_vel ws) b u = t_at (u_vel us) b u /\ t_at (u_in ws) b u = false /\ t_at (u_in us) b u = false /\
       vz (t_at (u_vel us) b u) = 0 /\ gp_min_v p <= vnorm (t_at (u_vel us) b u) <= gp_max_v p /\
       (* the axis is computed from the final position, towards the origin if x >= 0 and away from it if x < 0 *)
       (t_at (u_orient ws) b u = None <-> xc = 0 /\ yc = 0) /\
       (t_at (u_orient us) b u = None <-> x = 0 /\ y = 0) /\
       (forall o, t_at (u_orient ws) b u = Some o ->
          (0 <= xc -> looks 1 (gp_elev p) xc yc o) /\ (xc < 0 -> looks (-1) (gp_elev p) xc yc o)) /\
       (forall o, t_at (u_orient us) b u = Some o ->
          (0 <= x -> looks 1 (gp_elev p) x y o) /\ (x < 0 -> looks (-1) (gp_elev p) x y o))).
Proof. exact C85_l. Qed.
Print Assumptions C85_cell_drop.

(* C85: every other drop area is rejected. *)
Theorem C85_drop_area :
  forall batch num_ut area cell p dr, area <> "sector" -> area <> "cell" ->
  exists m, generate_uts_topology batch num_ut area cell p dr = Err (AssertionError m).
Proof. exact C85_area_l. Qed.
Print Assumptions C85_drop_area.

(* The hypotheses of C85 hold for a drop straight below the satellite; one UT there has no orientation and one looks away. *)
Example cell_example :
  0 <= gp_isd below_par /\ 0 < gp_height below_par /\ 0 < gp_elev below_par <= 90 /\
  gp_min_h below_par <= gp_max_h below_par /\ 0 <= gp_min_v below_par <= gp_max_v below_par /\ proper_draws below_draws /\
  exists ws xc yc z, generate_uts_topology 1 2 "cell" (fun _ _ => (0, 0)) below_par below_draws = Ok ws /\
    (* the UT at the origin has no orientation; the other one is turned into sector 1 and looks away *)
    t_at (u_orient ws) 0%nat 0%nat = None /\
    t_at (u_loc ws) 0%nat 1%nat = Some (V3 xc yc z) /\ xc = -25 /\ yc * yc = 1875 /\
    exists o, t_at (u_orient ws) 0%nat 1%nat = Some o /\ looks (-1) 90 xc yc o.
Proof. exact cell_example_l. Qed.
