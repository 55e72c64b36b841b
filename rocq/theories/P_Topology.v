(* Properties C06-C09 and C12-C16: topology histories, derived quantities, geometry. *)
From Coq Require Import Reals String List Bool ZArith Lra Lia.
From Verif Require Import M_Base M_Params S_Config M_Geometry M_Pathloss M_Scenario S_Topology
  L_Scenario L_Fresh L_Topology.
Import ListNotations.
Open Scope string_scope.
Open Scope list_scope.
Open Scope R_scope.

(* C06: with failures limited to rejected incomplete calls, every stored value is the one of the most
   recent successful call that gave it (and is unset iff no such call exists). *)
Theorem C06_latest_successful_value_wins :
  forall sc ops, constructed sc ->
    (forall o r, In (o, r) (trace sc (init_state sc) ops) -> successful r \/ rejected r) ->
    let h := trace sc (init_state sc) ops in
    let st := run sc (init_state sc) ops in
    (forall v, s_ut_loc st = Some v <-> is_latest successful a_ut_loc h v) /\
    (forall v, s_bs_loc st = Some v <-> is_latest successful a_bs_loc h v) /\
    (forall v, s_ut_ori st = Some v <-> is_latest successful a_ut_ori h v) /\
    (forall v, s_bs_ori st = Some v <-> is_latest successful a_bs_ori h v) /\
    (forall v, s_ut_vel st = Some v <-> is_latest successful a_ut_vel h v) /\
    (forall v, s_in st = Some v <-> is_latest successful a_in h v) /\
    (forall v, s_req_los st = Some v <-> is_latest successful a_los h v).
Proof.
  exact (fun sc ops Hc Hh => match C06_successful_l sc ops Hc Hh with
    Build_latest_all _ _ _ A B C D E F G => conj A (conj B (conj C (conj D (conj E (conj F G))))) end).
Qed.
Print Assumptions C06_latest_successful_value_wins.

(* C06, every history: the value of the most recent call not rejected as incomplete. *)
Theorem C06_latest_accepted_value_wins :
  forall sc ops, constructed sc ->
    let counts := fun r => ~ rejected r in
    let h := trace sc (init_state sc) ops in
    let st := run sc (init_state sc) ops in
    (forall v, s_ut_loc st = Some v <-> is_latest counts a_ut_loc h v) /\
    (forall v, s_bs_loc st = Some v <-> is_latest counts a_bs_loc h v) /\
    (forall v, s_ut_ori st = Some v <-> is_latest counts a_ut_ori h v) /\
    (forall v, s_bs_ori st = Some v <-> is_latest counts a_bs_ori h v) /\
    (forall v, s_ut_vel st = Some v <-> is_latest counts a_ut_vel h v) /\
    (forall v, s_in st = Some v <-> is_latest counts a_in h v) /\
    (forall v, s_req_los st = Some v <-> is_latest counts a_los h v).
Proof.
  exact (fun sc ops Hc => match C06_stored_l sc ops Hc with
    Build_latest_all _ _ _ A B C D E F G => conj A (conj B (conj C (conj D (conj E (conj F G))))) end).
Qed.
Print Assumptions C06_latest_accepted_value_wins.

(* the Doppler switch: the latest given value, or the constructor's *)
Theorem C06_doppler_switch :
  forall sc ops v, constructed sc ->
    s_doppler (run sc (init_state sc) ops) = v <->
    is_latest (fun r => ~ rejected r) a_doppler (trace sc (init_state sc) ops) v \/
    (sc_doppler sc = v /\ forall o r, In (o, r) (trace sc (init_state sc) ops) -> ~ rejected r ->
       a_doppler (fst o) = None).
Proof. exact doppler_latest. Qed.
Print Assumptions C06_doppler_switch.

Example C06_example : exists sc st, constructed sc /\
  set_topology sc (init_state sc) (w_args no_weather) no_draws = (st, Ok true).
Proof.
  destruct example_constructed as (sc & Hc & _).
  destruct (first_call sc (init_state sc) no_weather no_draws (constructed_accepted sc Hc)) as [st E].
  exists sc, st. split; assumption.
Qed.

(* C07: a call leaving a required value never given raises and is as if it had not been made; and
   this is the only reason for that rejection. *)
Theorem C07_incomplete_call_no_effect :
  forall sc ops a dr, constructed sc ->
    something_missing (trace sc (init_state sc) ops) a ->
    (exists m, set_topology sc (run sc (init_state sc) ops) a dr
       = (run sc (init_state sc) ops, Err (AssertionError m))) /\
    forall rest, run sc (init_state sc) (ops ++ (a, dr) :: rest) = run sc (init_state sc) (ops ++ rest).
Proof. exact (fun sc ops a dr Hc => missing_rejected sc ops a dr (constructed_accepted sc Hc)). Qed.
Print Assumptions C07_incomplete_call_no_effect.

Theorem C07_rejected_only_if_incomplete :
  forall sc ops a dr, constructed sc ->
    rejected (snd (set_topology sc (run sc (init_state sc) ops) a dr)) ->
    something_missing (trace sc (init_state sc) ops) a.
Proof. exact (fun sc ops a dr Hc => rejected_missing sc ops a dr (constructed_accepted sc Hc)). Qed.
Print Assumptions C07_rejected_only_if_incomplete.

Example C07_example : forall sc, something_missing (trace sc (init_state sc) []) (only_weather no_weather).
Proof. left. split; [reflexivity | intros o r []]. Qed.

(* Finding: a call that fails for another reason (two base stations) is not atomic: the UT
   locations and 2D distances are replaced, the LoS states are not.  It also shows that
   "the most recent successful call" in C06 cannot be had without the restriction. *)
Theorem C07_failing_call_atomic_refuted :
  exists sc ops a dr,
    constructed sc /\
    (forall o r, In (o, r) (trace sc (init_state sc) ops) -> r = Ok true) /\
    let st := run sc (init_state sc) ops in
    let st' := fst (set_topology sc st a dr) in
    (exists e, snd (set_topology sc st a dr) = Err e) /\
    s_ut_loc st' = a_ut_loc a /\ s_ut_loc st' <> s_ut_loc st /\
    s_d2d st' <> s_d2d st /\ s_los st' = s_los st.
Proof. exact not_atomic. Qed.
Print Assumptions C07_failing_call_atomic_refuted.

(* C08 is false: a water-vapour density given earlier is forgotten. *)
Theorem C08_weather_reused_refuted :
  exists sc ops v w,
    constructed sc /\
    (forall o r, In (o, r) (trace sc (init_state sc) ops) -> successful r) /\
    is_latest successful (fun a => wa_vapor (a_weather a)) (trace sc (init_state sc) ops) v /\
    s_weather (run sc (init_state sc) ops) = Some w /\ w_vapor w <> v.
Proof. exact weather_forgotten. Qed.
Print Assumptions C08_weather_reused_refuted.

(* What does hold: the weather in force is that of the last call not rejected, missing parameters
   taking their defaults. *)
Theorem C08_weather_of_last_call :
  forall sc ops w, constructed sc ->
    s_weather (run sc (init_state sc) ops) = Some w <->
    exists pre o r post, trace sc (init_state sc) ops = pre ++ (o, r) :: post /\ ~ rejected r /\
      given_or_default (fst o) w /\ forall o' r', In (o', r') post -> rejected r'.
Proof. exact weather_last. Qed.
Print Assumptions C08_weather_of_last_call.

(* C09 is false as stated: after a successful call that only changes the weather the path losses
   are not those of the current values, whatever the draws. *)
Theorem C09_derived_current_refuted :
  exists sc ops w,
    constructed sc /\
    (forall o r, In (o, r) (trace sc (init_state sc) ops) -> successful r) /\
    s_weather (run sc (init_state sc) ops) = Some w /\
    forall dr st',
      set_topology sc (init_state sc) (current_args (run sc (init_state sc) ops) w) dr = (st', Ok true) ->
      ~ same_derived st' (run sc (init_state sc) ops).
Proof. exact derived_stale. Qed.
Print Assumptions C09_derived_current_refuted.

(* Everything else is fresh: the derived quantities are those a new object computes from the current
   values, with the draws and the weather of the last updating call. *)
Theorem C09_derived_fresh_except_weather_partial :
  forall sc ops, constructed sc ->
    (forall o r, In (o, r) (trace sc (init_state sc) ops) -> successful r \/ rejected r) ->
    (exists o r, In (o, r) (trace sc (init_state sc) ops) /\ successful r) ->
    exists o w st', latest_update (trace sc (init_state sc) ops) o /\ given_or_default (fst o) w /\
      set_topology sc (init_state sc) (current_args (run sc (init_state sc) ops) w) (snd o) = (st', Ok true) /\
      same_derived st' (run sc (init_state sc) ops) /\ same_inputs st' (run sc (init_state sc) ops).
Proof. exact derived_fresh_c. Qed.
Print Assumptions C09_derived_fresh_except_weather_partial.

(* the hypotheses of C06-C09: a rejected, an updating and a non-updating call *)
Example C09_example : exists sc o1 o2 o3 m,
  constructed sc /\ trace sc (init_state sc) [o1; o2; o3] = [(o1, Err (AssertionError m)); (o2, Ok true); (o3, Ok false)] /\
  something_missing [] (fst o1) /\ a_los (fst o3) = None.
Proof. exact history_example. Qed.

(* C12 *)
Theorem C12_los_semantics :
  forall sc st a dr st', constructed sc -> set_topology sc st a dr = (st', Ok true) ->
    exists los ind p,
      s_los st' = Some los /\ s_in st' = Some ind /\
      documented_value (sc_env sc) (sc_fc sc) (sc_dir sc) (sc_elev sc) true "LoS_p" (Fin p) /\
      forall b s u, los b s u = true <->
        t_at ind b u = false /\
        match s_req_los st' with Some r => r = true | None => dr_los dr b s u < p end.
Proof. exact los_semantics. Qed.
Print Assumptions C12_los_semantics.

Theorem C12_forced_los_stays :
  forall sc ops rest r, constructed sc ->
    s_req_los (run sc (init_state sc) ops) = Some r ->
    (forall o, In o rest -> a_los (fst o) = None) ->
    s_req_los (run sc (init_state sc) (ops ++ rest)) = Some r.
Proof. exact forced_los_persists. Qed.
Print Assumptions C12_forced_los_stays.

(* C13 *)
Theorem C13_indoor_outdoor_split :
  forall sc st a dr st', constructed sc -> set_topology sc st a dr = (st', Ok true) ->
    exists d2 g i ind,
      s_d2d st' = Some d2 /\ s_geo st' = Some g /\ s_ind st' = Some i /\ s_in st' = Some ind /\
      forall b s u, 0 <= dr_indoor dr b s u < 10 -> 0 < d2 b s u ->
        i_2d_in i b s u + i_2d_out i b s u = d2 b s u /\
        i_3d_in i b s u + i_3d_out i b s u = g_d3d g b s u /\
        i_2d_in i b s u * g_d3d g b s u = i_3d_in i b s u * d2 b s u /\
        (t_at ind b u = false -> i_2d_in i b s u = 0 /\ i_3d_in i b s u = 0) /\
        (t_at ind b u = true -> 0 <= i_2d_in i b s u < 10 /\ i_2d_in i b s u = dr_indoor dr b s u).
Proof. exact indoor_split. Qed.
Print Assumptions C13_indoor_outdoor_split.

(* C14: the reported distance is the only solution of the triangle equation (in every example whose
   satellite has the altitude of the first one, see C15) ... *)
Theorem C14_reported_distance_solves_triangle :
  forall sc st a dr st' bs, constructed sc -> set_topology sc st a dr = (st', Ok true) ->
    s_bs_loc st' = Some bs -> 0 < vz (t_at bs 0%nat 0%nat) ->
    exists g, s_geo st' = Some g /\ forall b u, vz (t_at bs b 0%nat) = vz (t_at bs 0%nat 0%nat) ->
      spherical_triangle (sc_elev sc) (vz (t_at bs b 0%nat)) (g_d3d g b 0%nat u) /\
      forall d, spherical_triangle (sc_elev sc) (vz (t_at bs b 0%nat)) d -> d = g_d3d g b 0%nat u.
Proof. exact reported_distance. Qed.
Print Assumptions C14_reported_distance_solves_triangle.

(* ... and solutions have the documented bounds and monotonicity. *)
Theorem C14_bounds :
  forall e h d, 0 < e <= 90 -> 0 < h -> spherical_triangle e h d -> h <= d /\ (e = 90 -> d = h).
Proof. exact triangle_bounds. Qed.
Print Assumptions C14_bounds.

Theorem C14_decreases_with_elevation :
  forall e1 e2 h d1 d2, 0 < e1 -> e1 < e2 <= 90 -> 0 < h ->
    spherical_triangle e1 h d1 -> spherical_triangle e2 h d2 -> d2 < d1.
Proof. exact triangle_elev. Qed.
Print Assumptions C14_decreases_with_elevation.

Theorem C14_increases_with_height :
  forall e h1 h2 d1 d2, 0 < e <= 90 -> 0 < h1 -> h1 < h2 ->
    spherical_triangle e h1 d1 -> spherical_triangle e h2 d2 -> d1 < d2.
Proof. exact triangle_height. Qed.
Print Assumptions C14_increases_with_height.

Example C14_example : spherical_triangle 90 600000 600000.
Proof.
  unfold spherical_triangle. split; [lra|]. replace (90 * (PI / 180)) with (PI / 2) by field.
  rewrite sin_PI2. ring.
Qed.

(* C15 is false: with a different satellite height per batch example, the second example's distance
   is not that of its own satellite. *)
Theorem C15_per_example_height_refuted :
  exists sc a dr st' bs g,
    constructed sc /\ set_topology sc (init_state sc) a dr = (st', Ok true) /\
    s_bs_loc st' = Some bs /\ s_geo st' = Some g /\
    (forall b, (b < t_batch bs)%nat -> 0 < vz (t_at bs b 0%nat)) /\
    exists b, (b < t_batch bs)%nat /\
      ~ spherical_triangle (sc_elev sc) (vz (t_at bs b 0%nat)) (g_d3d g b 0%nat 0%nat).
Proof. exact height_of_first_example. Qed.
Print Assumptions C15_per_example_height_refuted.

(* C16: ranges and departure direction; the arrival direction has its horizontal part flipped,
   and is right once the zenith is folded to 360 - ZoA. *)
Theorem C16_los_angles :
  forall sc st a dr st', constructed sc -> set_topology sc st a dr = (st', Ok true) ->
    exists ut bs g, s_ut_loc st' = Some ut /\ s_bs_loc st' = Some bs /\ s_geo st' = Some g /\
      forall b s u,
        let x := vsub (t_at ut b u) (t_at bs b s) in
        0 <= g_aod g b s u < 360 /\ 0 <= g_aoa g b s u < 360 /\
        0 <= g_zod g b s u <= 180 /\ 0 <= g_zoa g b s u < 360 /\
        vscale (vnorm x) (unit_dir (g_zod g b s u) (g_aod g b s u)) = x /\
        vscale (vnorm x) (unit_dir (g_zoa g b s u) (g_aoa g b s u)) = V3 (vx x) (vy x) (- vz x) /\
        vscale (vnorm x) (unit_dir (360 - g_zoa g b s u) (g_aoa g b s u)) = vscale (-1) x.
Proof. exact reported_angles. Qed.
Print Assumptions C16_los_angles.

Theorem C16_arrival_direction_refuted :
  exists sc a dr st' ut bs g,
    constructed sc /\ set_topology sc (init_state sc) a dr = (st', Ok true) /\
    s_ut_loc st' = Some ut /\ s_bs_loc st' = Some bs /\ s_geo st' = Some g /\
    ~ points_along (unit_dir (g_zoa g 0%nat 0%nat 0%nat) (g_aoa g 0%nat 0%nat 0%nat))
        (vsub (t_at bs 0%nat 0%nat) (t_at ut 0%nat 0%nat)).
Proof. exact arrival_wrong. Qed.
Print Assumptions C16_arrival_direction_refuted.

(* the hypotheses of C12-C16: two examples, each with an indoor and an outdoor UT *)
Example C12_C16_example : exists sc st' los d2 i bs,
  constructed sc /\ set_topology sc (init_state sc) mixed_args mixed_draws = (st', Ok true) /\
  s_los st' = Some los /\ s_d2d st' = Some d2 /\ s_ind st' = Some i /\ s_bs_loc st' = Some bs /\
  (forall b u, (b < 2)%nat -> (u < 2)%nat -> 0 < d2 b 0%nat u /\ los b 0%nat u = negb (Nat.eqb u 0) /\
     i_2d_in i b 0%nat u = (if Nat.eqb u 0 then 4 else 0)) /\
  0 < vz (t_at bs 0%nat 0%nat) /\ vz (t_at bs 1%nat 0%nat) = vz (t_at bs 0%nat 0%nat) /\ t_at bs 1%nat 0%nat <> t_at bs 0%nat 0%nat.
Proof. exact mixed_example. Qed.
