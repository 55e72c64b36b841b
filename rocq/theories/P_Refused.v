(* Property C103: what a refused topology leaves behind in a channel object. *)
From Coq Require Import Reals String List Bool Arith.
From Verif Require Import M_Base M_Params S_Config M_Geometry M_Pathloss M_Scenario S_Topology M_Lsp M_Rays S_Rays M_Antenna M_Cplx M_Coeff S_Coeff M_Channel S_Channel
  S_Isolation L_Fresh L_Coeff L_Refused.
Import ListNotations.
Open Scope string_scope.
Open Scope list_scope.
Open Scope R_scope.

(* C103: a call refused because an argument is missing leaves the whole object as it was, whatever came before. *)
Theorem C103_incomplete :
  forall sc al ops a dr z m, constructed sc ->
  let c := chan_run sc al (chan_init sc) ops in
  snd (chan_set_topology sc al c a dr z) = Err (AssertionError m) -> fst (chan_set_topology sc al c a dr z) = c.
Proof. exact C103_incomplete_l. Qed.
Print Assumptions C103_incomplete.

(* C103: whatever came before, refused or not, a topology given in full is accepted exactly if a new object accepts it, and then every later call gives what the new object gives. *)
Theorem C103_recovery :
  forall sc al before ut bs uo bo vel ind l dr z,
  let a := full_args ut bs uo bo vel ind (Some l) in
  let used := chan_set_topology sc al (chan_run sc al (chan_init sc) before) a dr z in
  let fresh := chan_set_topology sc al (chan_init sc) a dr z in
  snd used = snd fresh /\
  (snd used = Ok tt -> forall srt srtd ua ba fs d,
     chan_call srt srtd sc ua ba al (fst used) fs d = chan_call srt srtd sc ua ba al (fst fresh) fs d).
Proof. exact C103_recovery_l. Qed.
Print Assumptions C103_recovery.

(* Finding: a call refused because it brings another number of stations than one makes every later channel call fail, although calls worked before. *)
Theorem C103_stations_refuted :
  forall sc al ops a dr z a' dr' z' bs2, constructed sc -> settled sc al ops a dr z ->
  let c := chan_run sc al (chan_init sc) ops in
  a_bs_loc a' = Some bs2 -> t_num bs2 <> 1%nat ->
  (exists e, snd (chan_set_topology sc al c a' dr' z') = Err e) /\
  forall srt srtd ua ba fs d,
    (exists o, chan_call srt srtd sc ua ba al c fs d = Ok o) /\
    (exists e, chan_call srt srtd sc ua ba al (fst (chan_set_topology sc al c a' dr' z')) fs d = Err e).
Proof. exact C103_stations_l. Qed.
Print Assumptions C103_stations_refuted.

(* Finding: a topology refused because UTs coincide is nevertheless used: geometry, LoS states and path losses are those refused, spatial correlations, cluster masks and large scale parameters the earlier ones, and channel calls still return. *)
Theorem C103_answered_refuted :
  forall sc al ops a dr z a' dr' z' st, constructed sc -> settled sc al ops a dr z ->
  let c := chan_run sc al (chan_init sc) ops in
  let c' := fst (chan_set_topology sc al c a' dr' z') in
  set_topology sc (c_st c) (channel_args a') dr' = (st, Ok true) -> sizes st = sizes (c_st c) ->
  snd (chan_set_topology sc al c a' dr' z') <> Ok tt ->
  c_st c' = st /\ c_spatial c' = c_spatial c /\ c_mask c' = c_mask c /\ c_lsp c' = c_lsp c /\
  forall srt srtd ua ba fs d, exists o, chan_call srt srtd sc ua ba al c' fs d = Ok o.
Proof. exact C103_answered_l. Qed.
Print Assumptions C103_answered_refuted.

(* Finding: with two UTs of which one does not move, the refused topology changes the coefficient of the UT that stayed, here by 20 dB of path loss drawn anew. *)
Theorem C103_used_refuted :
  forall srt srtd sc, valid_argsort srt -> valid_argsort_desc srtd -> constructed sc ->
  sc_pathloss sc = true -> sc_shadow sc = false ->
  exists z c c' dr' e d o o' h h',
    chan_set_topology sc false (chan_init sc) (pair_args 100) no_draws z = (c, Ok tt) /\
    chan_set_topology sc false c (pair_args 0) dr' z = (c', Err e) /\
    chan_call srt srtd sc omni_array omni_array false c 1e6 d = Ok o /\
    chan_call srt srtd sc omni_array omni_array false c' 1e6 d = Ok o' /\
    link_coefficient (sc_dir sc) o 0 0 0 0 0 0 0 = Some h /\ link_coefficient (sc_dir sc) o' 0 0 0 0 0 0 0 = Some h' /\
    h <> c0 /\ h' = cmul h (creal (1 / 10)).
Proof. exact C103_used_l. Qed.
Print Assumptions C103_used_refuted.

(* two UTs 100 m apart, a refused move of one onto the other, two stations, an accepted later topology, and a first call without orientations meet the hypotheses *)
Example C103_cases : forall sc al z, constructed sc ->
  let ops := [SetTopology (pair_args 100) no_draws z] in
  let c := chan_run sc al (chan_init sc) ops in
  settled sc al ops (pair_args 100) no_draws z /\
  (exists bs2, a_bs_loc two_bs = Some bs2 /\ t_num bs2 <> 1%nat) /\
  (exists st, set_topology sc (c_st c) (channel_args (pair_args 0)) no_draws = (st, Ok true) /\ sizes st = sizes (c_st c)) /\
  snd (chan_set_topology sc al c (pair_args 0) no_draws z) <> Ok tt /\
  snd (chan_set_topology sc al (fst (chan_set_topology sc al c (pair_args 0) no_draws z)) (pair_args 50) no_draws z) = Ok tt /\
  (exists m, snd (chan_set_topology sc al (chan_init sc) two_bs no_draws z) = Err (AssertionError m)).
Proof. exact C103_cases_l. Qed.
