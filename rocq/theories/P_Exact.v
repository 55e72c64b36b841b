(* Properties C15 and C16: exactly when the refuted parts hold; C21 for indoor links; C38 for the generated rays. *)
From Coq Require Import Reals String List Bool ZArith Lra Lia.
From Verif Require Import M_Base M_Params S_Config M_Geometry M_Pathloss M_Scenario S_Topology
  L_Scenario L_Fresh L_Topology M_Rays S_Rays L_Rays L_RaysEx M_Cplx M_Coeff L_Exact.
Open Scope string_scope.
Open Scope list_scope.
Open Scope R_scope.


(* C15: the distance of every example is the one of a satellite at the height of the first example, so it is right exactly for the examples whose satellite has this height. *)
Theorem C15_right_iff_same_height :
  forall sc st a dr st' bs,
  constructed sc -> set_topology sc st a dr = (st', Ok true) ->
  s_bs_loc st' = Some bs -> 0 < vz (t_at bs 0%nat 0%nat) ->
  exists g, s_geo st' = Some g /\ forall b u, 0 < vz (t_at bs b 0%nat) ->
    spherical_triangle (sc_elev sc) (vz (t_at bs 0%nat 0%nat)) (g_d3d g b 0%nat u) /\
    (spherical_triangle (sc_elev sc) (vz (t_at bs b 0%nat)) (g_d3d g b 0%nat u) <->
     vz (t_at bs b 0%nat) = vz (t_at bs 0%nat 0%nat)).
Proof. exact first_height_exact. Qed.
Print Assumptions C15_right_iff_same_height.

(* C16: the reported arrival direction is the one from the UT back to the satellite exactly if the UT is straight below (or above) it. *)
Theorem C16_arrival_right_iff_straight_below :
  forall sc st a dr st',
  constructed sc -> set_topology sc st a dr = (st', Ok true) ->
  exists ut bs g, s_ut_loc st' = Some ut /\ s_bs_loc st' = Some bs /\ s_geo st' = Some g /\
  forall b s u,
    points_along (unit_dir (g_zoa g b s u) (g_aoa g b s u)) (vsub (t_at bs b s) (t_at ut b u)) <->
    vx (t_at ut b u) = vx (t_at bs b s) /\ vy (t_at ut b u) = vy (t_at bs b s).
Proof. exact arrival_exact. Qed.
Print Assumptions C16_arrival_right_iff_straight_below.

(* the hypotheses are those of C15_per_example_height_refuted, which gives a batch of two examples with two heights, and of C12_C16_example *)
Example C15_C16_example : exists sc a dr st' bs,
  constructed sc /\ set_topology sc (init_state sc) a dr = (st', Ok true) /\ s_bs_loc st' = Some bs /\
  0 < vz (t_at bs 0%nat 0%nat) /\ 0 < vz (t_at bs 1%nat 0%nat) /\ vz (t_at bs 1%nat 0%nat) <> vz (t_at bs 0%nat 0%nat).
Proof. exact two_heights_example. Qed.

(* C21 fails for an indoor UT, in every configuration and for all draws: the table lists at least two clusters for the state of the link, but every cluster is inactive. *)
Theorem C21_indoor_refuted :
  forall sc p l dr,
  constructed sc -> exists st' los ind mask n,
  set_topology sc (init_state sc) (one_ut p true l) dr = (st', Ok true) /\
  s_los st' = Some los /\ s_in st' = Some ind /\ t_at ind 0%nat 0%nat = true /\
  compute_clusters_mask st' = Ok mask /\
  documented_value (sc_env sc) (sc_fc sc) (sc_dir sc) (sc_elev sc) (los 0 0 0)%nat "numClusters" (Fin (INR n)) /\
  (2 <= n)%nat /\ forall c, mask 0%nat 0%nat 0%nat c = 1.
Proof. exact indoor_mask_l. Qed.
Print Assumptions C21_indoor_refuted.

(* C38: the cross-polarisation ratio of every generated ray is positive, so the moduli hold for all of them. *)
Theorem C38_generated_rays :
  forall sc st a dr st' mask srt lsps d rr,
  constructed sc -> set_topology sc st a dr = (st', Ok true) ->
  compute_clusters_mask st' = Ok mask -> gen_rays srt st' mask lsps d = Ok rr ->
  forall b s u r c q ph, rr b s u = Some r ->
    let M := phase_matrix (r_xpr r c q) ph in
    0 < r_xpr r c q /\ cnorm2 (m00 M) = 1 /\ cnorm2 (m11 M) = 1 /\
    cnorm2 (m01 M) = / r_xpr r c q /\ cnorm2 (m10 M) = / r_xpr r c q.
Proof. exact generated_phase_matrix. Qed.
Print Assumptions C38_generated_rays.
(* the hypotheses are those of C22-C27; rays_example in P_Rays.v gives a reachable case *)
