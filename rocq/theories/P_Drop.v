(* C111: UTs of a generated topology are dropped uniformly, each batch example anew. *)
From Coq Require Import Reals String List Arith ZArith.
From Verif Require Import M_Base M_Geometry M_TopoGen S_TopoGen S_Drop L_Drop.
Import ListNotations.
Open Scope string_scope.
Open Scope list_scope.
Open Scope R_scope.

(* C111: given the beam centre, each UT is dropped uniformly over the square and independently of all others: it falls into a square of r times the side exactly if its own two draws fall into parts of length r of their ranges. *)
Theorem C111_uniform :
  forall batch num_ut scenario a isd h el zmin zmax vmin vmax base,
  resolved scenario a isd h el zmin zmax vmin vmax -> 0 < isd -> 0 < h -> 0 < el <= 90 ->
  0 <= base < 1 -> exists cx cy, cx = base * centre_distance h el /\ 0 <= cy /\ cx * cx + cy * cy = centre_distance h el * centre_distance h el /\
  forall dr, proper_draws dr -> gd_base dr = base -> exists t, gen_single_sector_topology batch num_ut scenario a dr = Ok t /\
  forall b u, exists p, t_at (u_loc (tp_uts t)) b u = Some p /\
  forall x0 y0 r, in_square x0 y0 (r * isd) p <->
    in_part ((x0 - cx) / isd + 1 / 2) r (gd_x dr b u) /\ in_part ((y0 - cy) / isd + 1 / 2) r (gd_y dr b u).
Proof. exact C111_uniform_l. Qed.
Print Assumptions C111_uniform.

(* C111 does not hold for the batch: all examples of one call share one beam centre, so that UTs of different examples never differ by more than the inter-site distance along an axis, while two calls can put the same UT farther apart than that. *)
Theorem C111_common_centre_refuted :
  forall batch num_ut scenario a isd h el zmin zmax vmin vmax,
  resolved scenario a isd h el zmin zmax vmin vmax -> 0 < isd -> 0 < h -> 0 < el < 90 -> 2 * isd < centre_distance h el ->
  (forall dr t b u b' u' p p', proper_draws dr -> gen_single_sector_topology batch num_ut scenario a dr = Ok t ->
     t_at (u_loc (tp_uts t)) b u = Some p -> t_at (u_loc (tp_uts t)) b' u' = Some p' ->
     Rabs (vx p - vx p') <= isd /\ Rabs (vy p - vy p') <= isd) /\
  (exists dr dr' t t' p p', proper_draws dr /\ proper_draws dr' /\ gen_single_sector_topology batch num_ut scenario a dr = Ok t /\
     gen_single_sector_topology batch num_ut scenario a dr' = Ok t' /\
     t_at (u_loc (tp_uts t)) 0%nat 0%nat = Some p /\ t_at (u_loc (tp_uts t')) 0%nat 0%nat = Some p' /\ isd < Rabs (vx p - vx p')).
Proof. exact C111_common_centre_refuted_l. Qed.
Print Assumptions C111_common_centre_refuted.

(* C111 does not hold for the directions: the beam centre lies in the first quadrant in every call, and half of the draws put it into the third of this quadrant between 60 and 90 degrees. *)
Theorem C111_direction_refuted :
  forall batch num_ut scenario a isd h el zmin zmax vmin vmax dr t,
  resolved scenario a isd h el zmin zmax vmin vmax -> 0 < isd -> 0 < h -> 0 < el < 90 -> proper_draws dr ->
  gen_single_sector_topology batch num_ut scenario a dr = Ok t ->
  exists cx cy, (forall b u p, t_at (u_loc (tp_uts t)) b u = Some p ->
     Rabs (vx p - cx) <= isd / 2 /\ Rabs (vy p - cy) <= isd / 2 /\ - isd / 2 <= vx p /\ - isd / 2 <= vy p) /\
    cx * cx + cy * cy = centre_distance h el * centre_distance h el /\
    (sqrt 3 * cx < cy <-> gd_base dr < 1 / 2).
Proof. exact C111_direction_refuted_l. Qed.
Print Assumptions C111_direction_refuted.

(* C111: height, speed and heading of each UT are uniform over their ranges and set by draws of its own: each falls into a part of its range exactly if its draw falls into the same part of [0, 1). *)
Theorem C111_motion :
  forall batch num_ut scenario a isd h el zmin zmax vmin vmax dr,
  resolved scenario a isd h el zmin zmax vmin vmax -> 0 < h -> 0 < el <= 90 -> zmin < zmax -> 0 <= vmin < vmax -> proper_draws dr ->
  exists t, gen_single_sector_topology batch num_ut scenario a dr = Ok t /\
  forall b u, exists p speed heading, t_at (u_loc (tp_uts t)) b u = Some p /\
    t_at (u_vel (tp_uts t)) b u = V3 (speed * cos heading) (speed * sin heading) 0 /\
    0 <= speed /\ - PI <= heading < PI /\
    forall k r,
      (zmin + k * (zmax - zmin) <= vz p < zmin + (k + r) * (zmax - zmin) <-> in_part k r (gd_z dr b u)) /\
      (vmin + k * (vmax - vmin) <= speed < vmin + (k + r) * (vmax - vmin) <-> in_part k r (gd_speed dr b u)) /\
      (- PI + k * (2 * PI) <= heading < - PI + (k + r) * (2 * PI) <-> in_part k r (gd_angle dr b u)).
Proof. exact C111_motion_l. Qed.
Print Assumptions C111_motion.

(* the hypotheses of C111 are met: three examples of seven UTs, a satellite at 600 km seen at 45 degrees *)
Example C111_example : exists dr, resolved "sur" steep_args 5000 600000 45 1.5 1.5 0 0 /\ centre_distance 600000 45 = 600000 /\
  2 * 5000 < centre_distance 600000 45 /\ proper_draws dr /\ gd_base dr = 1 / 4 /\ exists t, gen_single_sector_topology 3 7 "sur" steep_args dr = Ok t.
Proof. exact C111_example_l. Qed.

(* the hypotheses of C111_motion are met: heights of 1 to 20 m, speeds of up to 30 m/s *)
Example C111_motion_example : exists dr, resolved "sur" moving_args 5000 600000 45 1 20 0 30 /\ 1 < 20 /\ 0 <= 0 < 30 /\ proper_draws dr.
Proof. exact C111_motion_example_l. Qed.
