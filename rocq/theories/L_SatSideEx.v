(* Runs for C108. *)
From Coq Require Import Reals String List Bool Arith Lia Lra ZArith.
From Verif Require Import M_Base L_Base M_Params S_Config L_Params L_Config M_Geometry M_Pathloss M_Scenario
  M_Lsp S_Linear L_Linear S_Lsp S_Topology L_Pathloss L_Trig L_Geometry L_Scenario L_Fresh L_Topology L_Corr L_Lsp
  S_Pathloss L_Loss M_Rays S_Rays L_Rays L_RaysEx M_Antenna L_Antenna M_Cplx M_Coeff S_Coeff L_Rotation L_Coeff M_Channel S_Channel L_Chol L_Channel L_Link
  L_Paths S_Ray L_Ray L_MeanLinkEx L_SatSide L_SatArray.
Import ListNotations.
Open Scope string_scope.
Open Scope list_scope.
Open Scope R_scope.

(* one outdoor UT and a satellite at 600 km: the link has rays in every scenario *)
Lemma rays_run sc : constructed sc -> exists st' mask los,
  set_topology sc (init_state sc) (one_ut (V3 600000 0 0) false (Some true)) no_draws = (st', Ok true) /\
  compute_clusters_mask st' = Ok mask /\ s_los st' = Some los /\ los 0%nat 0%nat 0%nat = true /\
  s_bs_loc st' = Some (t1 (V3 0 0 600000)) /\
  exists d, forall lsps, exists rr r, gen_rays argsort st' mask lsps d = Ok rr /\ rr 0%nat 0%nat 0%nat = Some r.
Proof.
  intros Hc.
  destruct (one_ut_call sc (V3 600000 0 0) false (Some true) no_draws Hc) as (st' & H & _ & B & I).
  destruct (one_ut_los sc _ true _ st' Hc H) as (los & L1 & L2).
  destruct (make_ready _ _ _ _ _ Hc H) as (ls & los' & g & ind & bs & mask & RD).
  exists st', mask, los.
  split; [exact H|]. split; [apply RD|]. split; [exact L1|]. split; [exact L2|]. split; [exact B|].
  exists (plain_draws (fun _ => / 2)). intros lsps.
  assert (HG := gen_ready _ _ _ _ _ _ _ _ argsort lsps (plain_draws (fun _ => / 2)) RD).
  assert (Hi : t_at ind 0%nat 0%nat = false).
  { assert (E := rd_in _ _ _ _ _ _ _ _ RD). assert (ind = T 1 1 (fun _ _ => false)) by congruence. subst ind. reflexivity. }
  destruct (link_rays_outdoor _ _ _ _ _ _ _ _ _ _ _ _ 0 0 0 RD HG Hi) as (r & Hr & _).
  eexists. exists r. split; [exact HG | exact Hr].
Qed.

Lemma scenario_exists e dir : dir = "downlink" \/ dir = "uplink" -> exists sc, constructed sc /\ sc_env sc = e /\ sc_dir sc = dir.
Proof.
  intros Hd. destruct (scenario_init e 2e9 ex_array ex_array dir 45 true true true) as [sc | x] eqn:E.
  - exists sc. split; [repeat eexists; exact E|].
    destruct (init_accepted _ _ _ _ _ _ _ _ _ _ E) as (_ & A & B & C & D & _). auto.
  - exfalso.
    assert (H : is_ok (scenario_init e 2e9 ex_array ex_array dir 45 true true true)).
    { apply construct_iff. unfold supported_config, in_S_band; cbn. repeat split; auto; try lra. tauto. }
    rewrite E in H. destruct H as [? H]; discriminate || exact H.
Qed.

(* a row of two vertical antennas *)
Lemma antenna_row (j1 : R -> R) : exists p a e, make_array j1 p = Ok a /\ antenna_element a 0 e /\ antenna_element a 1 e /\ pa_pos a 0%nat <> pa_pos a 1%nat.
Proof.
  exists {| ar_rows_pp := 1; ar_cols_pp := 2; ar_pol := "single"; ar_type := "V"; ar_pattern := "omni";
     ar_fc := 2e9; ar_rows := 1; ar_cols := 1; ar_panel_v := None; ar_panel_h := None; ar_elem_v := None; ar_elem_h := None |}.
  unfold make_array.
  cbn [ar_rows_pp ar_cols_pp ar_pol ar_type ar_pattern ar_fc ar_rows ar_cols ar_panel_v ar_panel_h ar_elem_v ar_elem_h default].
  change (String.eqb "single" "single") with true. change (String.eqb "V" "V") with true. cbn [orb negb].
  assert (A : Rltb ((INR 1 - 1) * 0.5) ((INR 1 - 1) * 0.5 + 0.5) = true) by (apply Rltb_true; cbn; lra).
  assert (B : Rltb ((INR 2 - 1) * 0.5) ((INR 2 - 1) * 0.5 + 0.5) = true) by (apply Rltb_true; cbn; lra).
  rewrite !A, !B. cbn [negb]. unfold make_element. change (String.eqb "omni" "omni") with true. cbn [bind fst snd].
  eexists. eexists. split; [reflexivity|]. split; [apply first_polarisation; cbn; auto|]. split; [apply first_polarisation; cbn; auto|].
  cbn. intros E. injection E as E. unfold speed_of_light in E. lra.
Qed.

Lemma C108_example_l srt srtd j1 : valid_argsort srt -> valid_argsort_desc srtd ->
  exists sc ua pb ba e a dr z fs d out,
    constructed sc /\ settled sc false [SetTopology a dr z] a dr z /\ make_array j1 pb = Ok ba /\ sc_dir sc = "downlink" /\ sc_env sc <> Urban /\
    let c := chan_run sc false (chan_init sc) [SetTopology a dr z] in
    chan_call srt srtd sc ua ba false c fs d = Ok out /\ s_bs_loc (c_st c) = Some (t1 (V3 0 0 600000)) /\
    antenna_element ba 0 e /\ antenna_element ba 1 e /\ pa_pos ba 0%nat <> pa_pos ba 1%nat /\
    forall t, exists h, link_coefficient (sc_dir sc) out 0 0 0 0 0 0 t = Some h.
Proof.
  intros V VD. destruct (scenario_exists SubUrban "downlink" (or_introl eq_refl)) as (sc & Hc & He & Hd).
  set (a := one_ut (V3 600000 0 0) false (Some false)). set (z0 := fun _ _ _ _ : nat => 0).
  destruct (one_ut_call sc (V3 600000 0 0) false (Some false) no_draws Hc) as (st' & ST & U & B & I). fold a in ST.
  assert (OKz : forall z, snd (chan_set_topology sc false (chan_init sc) a no_draws z) = Ok tt).
  { intros z. destruct (C68_l sc false (chan_init sc) a no_draws z st' Hc ST) as (ut & ind & los & A1 & _ & _ & Iff).
    apply Iff. assert (ut = t1 (V3 600000 0 0)) by congruence. subst ut. cbn [t1 t_num t_batch]. intros; lia. }
  assert (Ch : changes_topology a) by (left; discriminate).
  assert (S : settled sc false [SetTopology a no_draws z0] a no_draws z0).
  { exists [], []. split; [reflexivity|]. split; [exact Ch|]. split; [apply OKz|intros ? ? ? []]. }
  destruct (antenna_row j1) as (p & ar & e & MA & E0 & E1 & NE).
  set (d := {| cd_lsp := z0; cd_rays := plain_draws (fun _ => / 2); cd_dir := fun _ => 0; cd_phase := fun _ _ _ _ _ _ => 0 |}).
  destruct (C67_l srt srtd ar ar sc false _ a no_draws z0 1e6 d V VD Hc S) as (out & lsps & ind & los & n1 & n2 & O & _ & IN & LO & _ & Q).
  set (c := chan_run sc false (chan_init sc) [SetTopology a no_draws z0]) in *.
  assert (ES : c_st c = st').
  { assert (RR := OKz z0). destruct (chan_set_topology sc false (chan_init sc) a no_draws z0) as [c1 r1] eqn:EQ. cbn [snd] in RR. subst r1.
    destruct (change_ok _ _ _ _ _ _ _ EQ Ch) as (ST1 & _).
    assert (c_st c1 = st') by (change (channel_args a) with a in ST1; change (c_st (chan_init sc)) with (init_state sc) in ST1; congruence).
    unfold c. cbn [chan_run fold_left chan_step]. rewrite EQ. assumption. }
  rewrite ES in *.
  destruct (one_ut_los sc _ false _ st' Hc ST) as (los' & LO1 & LO2).
  assert (los' = los) by congruence. subst los'. assert (ind = T 1 1 (fun _ _ => false)) by congruence. subst ind.
  exists sc, ar, p, ar, e, a, no_draws, z0, 1e6, d, out.
  split; [exact Hc|]. split; [exact S|]. split; [exact MA|]. split; [exact Hd|]. split; [congruence|]. cbv zeta. fold c. rewrite ES.
  split; [exact O|]. split; [exact B|]. split; [exact E0|]. split; [exact E1|]. split; [exact NE|].
  intros t. destruct (Q 0%nat 0%nat 0%nat eq_refl) as (D & LD & _ & _ & Q'); [rewrite LO2; discriminate|].
  destruct (Q' 0%nat) as [_ Q2]. specialize (Q2 0%nat 0%nat t).
  destruct (link_coefficient (sc_dir sc) out 0 0 0 0 0 0 t) as [h|]; [exists h; reflexivity|].
  assert (X := proj1 Q2 eq_refl). lia.
Qed.
