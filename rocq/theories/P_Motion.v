(* Property C91: turning and shifting the whole scene leaves every link unchanged. *)
From Coq Require Import Reals String List Bool Arith.
From Verif Require Import M_Base M_Params S_Config M_Geometry M_Pathloss M_Scenario S_Topology M_Lsp M_Rays M_Antenna M_Cplx M_Coeff M_Channel S_Channel
  S_Isolation S_Motion L_Motion.
Import ListNotations.
Open Scope string_scope.
Open Scope list_scope.
Open Scope R_scope.

(* C91: two channel objects, however their topologies came about, one of whose examples is an example of the other turned about a vertical axis and shifted horizontally, give the same coefficients and delays to every UT that is not straight below its satellite; without a turn, to every UT. *)
Theorem C91_motion :
  forall srt srtd ua ba sc al ops ops' a a' dr dr' z z' fs d d' w sx sy m b b',
  constructed sc -> settled sc al ops a dr z -> settled sc al ops' a' dr' z' ->
  let c := chan_run sc al (chan_init sc) ops in
  let c' := chan_run sc al (chan_init sc) ops' in
  moved_example w sx sy m b b' (c_st c) (c_st c') -> same_topo_draws m b b' dr dr' ->
  (if al then same_lsp_draws m b b' (cd_lsp d) (cd_lsp d') else same_lsp_draws m b b' z z') ->
  same_call_draws (sc_dir sc) m b b' d d' ->
  exists o o', chan_call srt srtd sc ua ba al c fs d = Ok o /\ chan_call srt srtd sc ua ba al c' fs d' = Ok o' /\
    forall is u iu p t, (u < m)%nat -> w = 0 \/ off_nadir (c_st c) b u ->
      link_coefficient (sc_dir sc) o b 0 is u iu p t = link_coefficient (sc_dir sc) o' b' 0 is u iu p t /\
      link_delay (sc_dir sc) o b 0 u p = link_delay (sc_dir sc) o' b' 0 u p.
Proof. exact C91_l. Qed.
Print Assumptions C91_motion.

(* C91: an accepted topology, turned and shifted as a whole, is accepted and gives every such UT the same coefficients and delays. *)
Theorem C91_whole_scene :
  forall sc al ut bs uo bo vel ind l dr z w sx sy, constructed sc ->
  let a := full_args ut bs uo bo vel ind l in
  let a1 := full_args (moved_nodes w sx sy ut) (moved_nodes w sx sy bs) (turned_bearings w uo) (turned_bearings w bo) (turned_nodes w vel) ind l in
  let run a := chan_set_topology sc al (chan_init sc) a dr z in
  snd (run a) = Ok tt ->
  snd (run a1) = Ok tt /\
  forall srt srtd ua ba fs d, exists o o1,
    chan_call srt srtd sc ua ba al (fst (run a)) fs d = Ok o /\
    chan_call srt srtd sc ua ba al (fst (run a1)) fs d = Ok o1 /\
    forall b is u iu p t, (b < t_batch ut)%nat -> (u < t_num ut)%nat ->
      w = 0 \/ vx (t_at ut b u) <> vx (t_at bs b 0%nat) \/ vy (t_at ut b u) <> vy (t_at bs b 0%nat) ->
      link_coefficient (sc_dir sc) o b 0 is u iu p t = link_coefficient (sc_dir sc) o1 b 0 is u iu p t /\
      link_delay (sc_dir sc) o b 0 u p = link_delay (sc_dir sc) o1 b 0 u p.
Proof. exact C91_whole_l. Qed.
Print Assumptions C91_whole_scene.

(* a batch of two examples with two UTs each meets the hypotheses, and a quarter turn moves its nodes *)
Example C91_example : forall sc al dr z, constructed sc ->
  let ut := T 2 2 (fun b u => V3 (600000 + 1000 * INR b + 100 * INR u) 0 1.5) in
  let bs := T 2 1 (fun b _ => V3 (50 * INR b) 0 600000) in
  let o n := T 2 n (fun _ _ => V3 0 0 0) in
  snd (chan_set_topology sc al (chan_init sc) (full_args ut bs (o 2%nat) (o 1%nat) (o 2%nat) (T 2 2 (fun b u => Nat.eqb b u)) None) dr z) = Ok tt /\
  (forall b u, vx (t_at ut b u) <> vx (t_at bs b 0%nat)) /\
  moved (PI / 2) 10 20 (t_at ut 1%nat 1%nat) = V3 10 601120 1.5.
Proof. exact motion_example_l. Qed.

(* C91: straight below its satellite a UT keeps the azimuths 0 and 180 degrees however the scene is turned. *)
Theorem C91_nadir :
  forall ut bs w sx sy, vx ut = vx bs -> vy ut = vy bs ->
  los_aod (moved w sx sy ut) (moved w sx sy bs) = 0 /\ los_aod ut bs = 0 /\
  los_aoa (moved w sx sy ut) (moved w sx sy bs) = 180 /\ los_aoa ut bs = 180.
Proof. exact C91_nadir_l. Qed.
Print Assumptions C91_nadir.
