(* Property C92: how a link evolves over the time samples. *)
From Coq Require Import Reals String List Bool Arith.
From Verif Require Import M_Base M_Params S_Config M_Geometry M_Pathloss M_Scenario S_Topology M_Lsp M_Rays M_Antenna M_Cplx M_Coeff M_Channel S_Channel
  S_Isolation S_Evolution L_Evolution.
Import ListNotations.
Open Scope string_scope.
Open Scope list_scope.
Open Scope R_scope.

(* C92: two channel objects that differ at most in the Doppler switch, the velocities, the directions of the orbits and the sampling frequency: at sample times by which a UT has moved by the same vector, all its coefficients differ by the one phase of the path by which the satellite has come closer, and the delays are the same. *)
Theorem C92_evolution :
  forall srt srtd ua ba sc sc' f al ops ops' a a' dr dr' z z' fs fs' d d' m b b',
  constructed sc -> constructed sc' -> sc' = with_doppler f sc -> settled sc al ops a dr z -> settled sc' al ops' a' dr' z' ->
  let c := chan_run sc al (chan_init sc) ops in
  let c' := chan_run sc' al (chan_init sc') ops' in
  same_example m b b' (without_velocity (c_st c)) (without_velocity (c_st c')) -> same_topo_draws m b b' dr dr' ->
  (if al then same_lsp_draws m b b' (cd_lsp d) (cd_lsp d') else same_lsp_draws m b b' z z') ->
  same_call_draws (sc_dir sc) m b b' (undirected d) (undirected d') ->
  exists o o', chan_call srt srtd sc ua ba al c fs d = Ok o /\ chan_call srt srtd sc' ua ba al c' fs' d' = Ok o' /\
    forall bs vel vel' is u iu p t t', (u < m)%nat ->
      s_bs_loc (c_st c) = Some bs -> s_ut_vel (c_st c) = Some vel -> s_ut_vel (c_st c') = Some vel' ->
      let tau := INR t / fs in let tau' := INR t' / fs' in
      vscale tau' (t_at vel' b' u) = vscale tau (t_at vel b u) ->
      let h := vz (t_at bs 0%nat 0%nat) in
      let closer := closing_speed sc' h (cd_dir d' b') * tau' - closing_speed sc h (cd_dir d b) * tau in
      link_coefficient (sc_dir sc) o' b' 0 is u iu p t' =
        option_map (cmul (cexpi (carrier_phase sc closer))) (link_coefficient (sc_dir sc) o b 0 is u iu p t) /\
      link_delay (sc_dir sc) o' b' 0 u p = link_delay (sc_dir sc) o b 0 u p.
Proof. exact C92_l. Qed.
Print Assumptions C92_evolution.

(* C92: sampling k times as fast adds samples between the old ones and changes none. *)
Theorem C92_sampling :
  forall srt srtd ua ba sc al ops a dr z fs d k, constructed sc -> settled sc al ops a dr z -> fs <> 0 -> (1 <= k)%nat ->
  let c := chan_run sc al (chan_init sc) ops in
  exists o o' ut, chan_call srt srtd sc ua ba al c fs d = Ok o /\ chan_call srt srtd sc ua ba al c (INR k * fs) d = Ok o' /\ s_ut_loc (c_st c) = Some ut /\
    forall b is u iu p t, (b < t_batch ut)%nat -> (u < t_num ut)%nat ->
      link_coefficient (sc_dir sc) o' b 0 is u iu p (k * t) = link_coefficient (sc_dir sc) o b 0 is u iu p t /\
      link_delay (sc_dir sc) o' b 0 u p = link_delay (sc_dir sc) o b 0 u p.
Proof. exact C92_sampling_l. Qed.
Print Assumptions C92_sampling.

(* C92: all coefficients of a UT at rest turn together, at the rate given by the closing speed of the satellite; without satellite Doppler they are constant. *)
Theorem C92_rest :
  forall srt srtd ua ba sc al ops a dr z fs d, constructed sc -> settled sc al ops a dr z ->
  let c := chan_run sc al (chan_init sc) ops in
  exists o ut bs vel, chan_call srt srtd sc ua ba al c fs d = Ok o /\
    s_ut_loc (c_st c) = Some ut /\ s_bs_loc (c_st c) = Some bs /\ s_ut_vel (c_st c) = Some vel /\
    forall b is u iu p t, (b < t_batch ut)%nat -> (u < t_num ut)%nat -> t_at vel b u = V3 0 0 0 ->
      let v := closing_speed sc (vz (t_at bs 0%nat 0%nat)) (cd_dir d b) in
      link_coefficient (sc_dir sc) o b 0 is u iu p t =
        option_map (cmul (cexpi (carrier_phase sc (v * (INR t / fs))))) (link_coefficient (sc_dir sc) o b 0 is u iu p 0) /\
      (sc_doppler sc = false \/ vz (t_at bs 0%nat 0%nat) < 600000 ->
       link_coefficient (sc_dir sc) o b 0 is u iu p t = link_coefficient (sc_dir sc) o b 0 is u iu p 0).
Proof. exact C92_rest_l. Qed.
Print Assumptions C92_rest.

(* a batch of two examples with two UTs, at any speed v of the second UT and with either Doppler switch, meets the
   hypotheses; with a non-zero closing speed *)
Example C92_example : forall sc al f dr z, constructed sc ->
  let ut := T 2 2 (fun b u => V3 (600000 + 1000 * INR b + 100 * INR u) 0 1.5) in
  let bs := T 2 1 (fun b _ => V3 (50 * INR b) 0 600000) in
  let o n := T 2 n (fun _ _ => V3 0 0 0) in
  let a v := full_args ut bs (o 2%nat) (o 1%nat) (T 2 2 (fun _ u => V3 (v * INR u) 0 0)) (T 2 2 (fun b u => Nat.eqb b u)) None in
  constructed (with_doppler f sc) /\
  (forall v, settled sc al [SetTopology (a v) dr z] (a v) dr z /\ settled (with_doppler f sc) al [SetTopology (a v) dr z] (a v) dr z) /\
  (forall v v' b m, (b < 2)%nat -> (m <= 2)%nat -> same_example m b b (without_velocity (c_st (chan_run sc al (chan_init sc) [SetTopology (a v) dr z])))
     (without_velocity (c_st (chan_run (with_doppler f sc) al (chan_init (with_doppler f sc)) [SetTopology (a v') dr z])))) /\
  (forall w, cos w = 1 -> 0 < sc_elev sc < 90 -> 0 < closing_speed (with_doppler true sc) 600000 w).
Proof. exact evolution_example_l. Qed.
