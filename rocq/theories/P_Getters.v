(* Properties C77, C78: outdoor-to-indoor penetration loss, readable properties of the scenario. *)
From Coq Require Import Reals String List Bool ZArith Lra Lia.
From Verif Require Import M_Base M_Params S_Config M_Geometry M_Pathloss M_Scenario M_Rays S_Topology S_Pathloss
  L_Params L_Config L_Scenario L_Fresh L_Topology L_Loss M_Getters S_Getters L_Getters.
Import ListNotations.
Open Scope string_scope.
Open Scope list_scope.
Open Scope R_scope.

(* C77: low-loss buildings. Outdoor UTs lose nothing; indoor UTs lose the wall (5 dB plus 30 percent glass, 70 percent concrete), half a dB per indoor metre and a random part of 4.4 dB. *)
Theorem C77_low_penetration_loss :
  forall sc st a dr st' z,
  constructed sc -> set_topology sc st a dr = (st', Ok true) ->
  exists ind d f wall, read sc st' "indoor" = Ok (VMask ind) /\ read sc st' "distance_2d_in" = Ok (VGrid d) /\
    o2i_low_loss sc st' z = Ok f /\
    from_dB (- (wall - 5)) = wall_transmission 0.3 (glass (sc_fc sc / 10 ^ 9)) (concrete (sc_fc sc / 10 ^ 9)) /\
    forall b s u, (t_at ind b u = false -> f b s u = 0) /\
      (t_at ind b u = true -> f b s u = wall + 0.5 * d b s u + 4.4 * z b s u /\ d b s u = dr_indoor dr b s u).
Proof. exact o2i_low_spec. Qed.
Print Assumptions C77_low_penetration_loss.

(* C77: high-loss buildings. As above with 70 percent coated glass, 30 percent concrete and 6.5 dB. *)
Theorem C77_high_penetration_loss :
  forall sc st a dr st' z,
  constructed sc -> set_topology sc st a dr = (st', Ok true) ->
  exists ind d f wall, read sc st' "indoor" = Ok (VMask ind) /\ read sc st' "distance_2d_in" = Ok (VGrid d) /\
    o2i_high_loss sc st' z = Ok f /\
    from_dB (- (wall - 5)) = wall_transmission 0.7 (coated_glass (sc_fc sc / 10 ^ 9)) (concrete (sc_fc sc / 10 ^ 9)) /\
    forall b s u, (t_at ind b u = false -> f b s u = 0) /\
      (t_at ind b u = true -> f b s u = wall + 0.5 * d b s u + 6.5 * z b s u /\ d b s u = dr_indoor dr b s u).
Proof. exact o2i_high_spec. Qed.
Print Assumptions C77_high_penetration_loss.

Example C77_example : exists sc st, constructed sc /\
  set_topology sc (init_state sc) (w_args no_weather) no_draws = (st, Ok true).
Proof.
  destruct example_constructed as (sc & Hc & _). exists sc.
  destruct (first_call sc (init_state sc) no_weather no_draws (constructed_accepted sc Hc)) as [st E].
  exists st. split; assumption.
Qed.

(* C77: the wall loss lies between the two materials plus 5 dB, grows with the frequency, and high-loss walls always lose more. *)
Theorem C77_wall_loss_laws :
  forall f,
  0 <= f ->
  5 + Rmin (glass f) (concrete f) <= o2i_wall_low f <= 5 + Rmax (glass f) (concrete f) /\
  5 + Rmin (coated_glass f) (concrete f) <= o2i_wall_high f <= 5 + Rmax (coated_glass f) (concrete f) /\
  (forall g, f < g -> o2i_wall_low f < o2i_wall_low g /\ o2i_wall_high f < o2i_wall_high g) /\
  o2i_wall_low f < o2i_wall_high f.
Proof. exact o2i_wall_laws. Qed.
Print Assumptions C77_wall_loss_laws.

(* at 20 GHz the low-loss wall is bounded by glass (6 dB) and concrete (85 dB) *)
Example C77_wall_example : 0 <= 20 /\ glass 20 = 6 /\ concrete 20 = 85 /\ 11 <= o2i_wall_low 20.
Proof.
  split; [lra|]. split; [unfold glass; lra|]. split; [unfold concrete; lra|].
  destruct (o2i_wall_laws 20) as (A & _); [lra|]. unfold glass, concrete in A.
  rewrite Rmin_left in A by lra. lra.
Qed.

(* C78: after any history with at least one updating call every input, size, link and weather property reads back a value. *)
Theorem C78_readable_after_an_update :
  forall sc ops n,
  constructed sc ->
  (exists o, In (o, Ok true) (trace sc (init_state sc) ops)) ->
  In n (input_properties ++ size_properties ++ link_properties ++ weather_properties) ->
  exists v, read sc (run sc (init_state sc) ops) n = Ok v /\ v <> VNone.
Proof. exact readable_after_update. Qed.
Print Assumptions C78_readable_after_an_update.

Example C78_example : exists sc ops, constructed sc /\
  (exists o, In (o, Ok true) (trace sc (init_state sc) ops)) /\
  exists v, read sc (run sc (init_state sc) ops) "basic_pathloss" = Ok v.
Proof.
  destruct example_constructed as (sc & Hc & _). exists sc, [(w_args no_weather, no_draws)].
  destruct (first_call sc (init_state sc) no_weather no_draws (constructed_accepted sc Hc)) as [st E].
  assert (H : exists o, In (o, Ok true) (trace sc (init_state sc) [(w_args no_weather, no_draws)])).
  { exists (w_args no_weather, no_draws). left. cbn [fst snd]. rewrite E. reflexivity. }
  split; [exact Hc|]. split; [exact H|].
  destruct (readable_after_update sc _ "basic_pathloss" Hc H) as (v & R1 & _); [cbn; tauto|].
  exists v. exact R1.
Qed.

(* C78: before the first accepted call inputs read None, sizes raise, derived quantities raise AttributeError. *)
Theorem C78_unset_before_the_first_topology :
  forall sc ops n,
  constructed sc ->
  (forall o r, In (o, r) (trace sc (init_state sc) ops) -> rejected r) ->
  (In n input_properties -> read sc (run sc (init_state sc) ops) n = Ok VNone) /\
  (In n size_properties -> exists m, read sc (run sc (init_state sc) ops) n = Err (ValueError m) \/
                                     read sc (run sc (init_state sc) ops) n = Err (TypeError m)) /\
  (In n (link_properties ++ weather_properties) ->
     exists m, read sc (run sc (init_state sc) ops) n = Err (AttributeError m)).
Proof. exact unreadable_before. Qed.
Print Assumptions C78_unset_before_the_first_topology.

(* a history of rejected calls: the first call gives only the weather *)
Example C78_before_example : exists sc ops, constructed sc /\ ops <> [] /\
  (forall o r, In (o, r) (trace sc (init_state sc) ops) -> rejected r) /\
  read sc (run sc (init_state sc) ops) "ut_loc" = Ok VNone /\
  exists m, read sc (run sc (init_state sc) ops) "los" = Err (AttributeError m).
Proof.
  destruct example_constructed as (sc & Hc & _). exists sc, [(only_weather no_weather, no_draws)].
  assert (H : forall o r, In (o, r) (trace sc (init_state sc) [(only_weather no_weather, no_draws)]) -> rejected r).
  { intros o r [I | []]. injection I as _ <-. cbn. eexists. reflexivity. }
  split; [exact Hc|]. split; [discriminate|]. split; [exact H|].
  destruct (unreadable_before sc _ "ut_loc" Hc H) as (A & _). split; [apply A; cbn; tauto|].
  destruct (unreadable_before sc _ "los" Hc H) as (_ & _ & B). apply B. cbn. tauto.
Qed.

(* C78: whatever calls follow, the constructor arguments read back unchanged. *)
Theorem C78_configuration_reads_back :
  forall e fc ut bs dir elev pathloss shadow doppler sc ops,
  scenario_init e fc ut bs dir elev pathloss shadow doppler = Ok sc ->
  let get := read sc (run sc (init_state sc) ops) in
  get "carrier_frequency" = Ok (VReal fc) /\ get "direction" = Ok (VStr dir) /\
  get "elevation_angle" = Ok (VReal elev) /\ get "pathloss_enabled" = Ok (VBool pathloss) /\
  get "shadow_fading_enabled" = Ok (VBool shadow) /\
  (exists l, get "lambda_0" = Ok (VReal l) /\ l * fc = 299792458) /\
  get "min_2d_in" = Ok (VReal 0) /\ get "max_2d_in" = Ok (VReal 10) /\
  get "rays_per_cluster" = Ok (VNat 20) /\
  exists n1 n2, get "num_clusters_los" = Ok (VEntry (PInt n1)) /\ get "num_clusters_nlos" = Ok (VEntry (PInt n2)) /\
    get "num_clusters_max" = Ok (VEntry (PInt (Z.max n1 n2))) /\ (2 <= n1 <= 4)%Z /\ (2 <= n2 <= 4)%Z.
Proof. exact configuration_read_back. Qed.
Print Assumptions C78_configuration_reads_back.

(* C78: an input property reads v exactly when v is the last value given for it in a call that was not rejected. *)
Theorem C78_inputs_read_back :
  forall sc ops,
  constructed sc ->
  let get := read sc (run sc (init_state sc) ops) in
  let latest := fun A (arg : topo_args -> option A) => is_latest (fun r => ~ rejected r) arg (trace sc (init_state sc) ops) in
  (forall v, get "ut_loc" = Ok (VPts v) <-> latest _ a_ut_loc v) /\
  (forall v, get "bs_loc" = Ok (VPts v) <-> latest _ a_bs_loc v) /\
  (forall v, get "ut_orientations" = Ok (VPts v) <-> latest _ a_ut_ori v) /\
  (forall v, get "bs_orientations" = Ok (VPts v) <-> latest _ a_bs_ori v) /\
  (forall v, get "ut_velocities" = Ok (VPts v) <-> latest _ a_ut_vel v) /\
  (forall v, get "indoor" = Ok (VMask v) <-> latest _ a_in v).
Proof. exact inputs_read_back. Qed.
Print Assumptions C78_inputs_read_back.

(* C78: batch size, number of UTs and UT heights are those of ut_loc. *)
Theorem C78_sizes_match_ut_locations :
  forall sc st t,
  read sc st "ut_loc" = Ok (VPts t) ->
  read sc st "batch_size" = Ok (VNat (t_batch t)) /\ read sc st "num_ut" = Ok (VNat (t_num t)) /\
  exists h, read sc st "h_ut" = Ok (VRow h) /\ t_batch h = t_batch t /\ t_num h = t_num t /\
    forall b u, t_at h b u = vz (t_at t b u).
Proof. exact sizes_consistent. Qed.
Print Assumptions C78_sizes_match_ut_locations.

(* C78: number of BSs and BS heights are those of bs_loc. *)
Theorem C78_sizes_match_bs_locations :
  forall sc st t,
  read sc st "bs_loc" = Ok (VPts t) ->
  read sc st "num_bs" = Ok (VNat (t_num t)) /\
  exists h, read sc st "h_bs" = Ok (VRow h) /\ t_batch h = t_batch t /\ t_num h = t_num t /\
    forall b u, t_at h b u = vz (t_at t b u).
Proof. exact bs_sizes_consistent. Qed.
Print Assumptions C78_sizes_match_bs_locations.

Example C78_sizes_example : exists sc st t, constructed sc /\ read sc st "ut_loc" = Ok (VPts t).
Proof.
  destruct example_constructed as (sc & Hc & _).
  destruct (first_call sc (init_state sc) no_weather no_draws (constructed_accepted sc Hc)) as [st E].
  destruct (first_state sc no_weather no_draws st (constructed_accepted sc Hc) E) as (A & _).
  exists sc, st. unfold read. cbn. rewrite A. eexists. split; [exact Hc | reflexivity].
Qed.

(* C78: free_space_pathloss is the free-space part of basic_pathloss; the rest is shadow fading and clutter. *)
Theorem C78_free_space_part_of_basic_pathloss :
  forall sc st a dr st',
  constructed sc -> set_topology sc st a dr = (st', Ok true) ->
  exists los d f p sl sn cl,
    read sc st' "los" = Ok (VGridB los) /\ read sc st' "distance_3d" = Ok (VGrid d) /\
    read sc st' "free_space_pathloss" = Ok (VGrid f) /\ read sc st' "basic_pathloss" = Ok (VGrid p) /\
    let doc := documented_value (sc_env sc) (sc_fc sc) (sc_dir sc) (sc_elev sc) in
    doc true "sigmaSF" (Fin sl) /\ doc false "sigmaSF" (Fin sn) /\ doc false "CL" (Fin cl) /\
    forall b s u, f b s u = free_space (sc_fc sc) (d b s u) /\
      p b s u = f b s u + (if los b s u then sl * dr_z_los dr b s u else sn * dr_z_nlos dr b s u + cl).
Proof. exact free_space_part. Qed.
Print Assumptions C78_free_space_part_of_basic_pathloss.

(* C78, refuted for one documented property: additional_pathloss raises AttributeError in every reachable state, after updates too. *)
Theorem C78_additional_pathloss_refuted :
  forall sc ops,
  exists m,
  read sc (run sc (init_state sc) ops) "additional_pathloss" = Err (AttributeError m).
Proof. exact additional_never_set. Qed.
Print Assumptions C78_additional_pathloss_refuted.

Example C78_additional_example : exists sc ops, constructed sc /\
  (exists o, In (o, Ok true) (trace sc (init_state sc) ops)) /\
  exists m, read sc (run sc (init_state sc) ops) "additional_pathloss" = Err (AttributeError m).
Proof.
  destruct C78_example as (sc & ops & A & B & _). exists sc, ops. split; [exact A|]. split; [exact B|].
  apply additional_never_set.
Qed.
