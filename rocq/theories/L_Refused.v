(* Lemmas for C103: what a refused topology leaves behind. *)
From Coq Require Import Reals String List Bool Arith Lia Lra FunctionalExtensionality.
From Verif Require Import M_Base M_Params M_Geometry M_Pathloss M_Scenario M_Lsp M_Rays M_Antenna M_Cplx M_Coeff M_Channel.
From Verif Require Import S_Config S_Topology S_Channel S_Isolation.
From Verif Require Import S_Pathloss S_Coeff L_Params L_Config L_Geometry L_Scenario L_Fresh L_Topology L_Lsp L_Rays L_RaysEx L_Coeff L_Channel L_Loss L_Link L_LinkEx L_Isolation.
Import ListNotations.
Open Scope string_scope.
Open Scope list_scope.
Open Scope R_scope.

(* ---- incomplete calls ---- *)
Lemma with_state_same c : with_state c (c_st c) = c.
Proof. destruct c. reflexivity. Qed.

Lemma C103_incomplete_l : forall sc al ops a dr z m, constructed sc ->
  let c := chan_run sc al (chan_init sc) ops in
  snd (chan_set_topology sc al c a dr z) = Err (AssertionError m) -> fst (chan_set_topology sc al c a dr z) = c.
Proof.
  intros sc al ops a dr z m Hc c H. assert (Ha := constructed_accepted sc Hc).
  unfold chan_set_topology in *. destruct (set_topology sc (c_st c) (channel_args a) dr) as [st r] eqn:E.
  destruct r as [[]|e].
  - exfalso. destruct (scenario_update sc c a dr st Hc E) as (ut & bs & Cm & Sm & mask & U & B & B1 & B2 & EC & ES & EM & (Lx & EX) & (ls & LS) & _).
    unfold sizes in H. rewrite U, B in H. rewrite EC in H. cbn [bind] in H. rewrite EX in H.
    rewrite ES in H. cbn [bind] in H.
    destruct (cholesky_all (t_batch ut) (t_num bs) 7 (t_num ut) Sm) as [Ls|e] eqn:ELs.
    + rewrite EM in H. destruct al; [discriminate|]. unfold lsp_sampler in H. cbn [c_st c_cross c_spatial with_mask with_spatial with_cross with_state] in H.
      rewrite U in H. unfold sample_lsp in H. rewrite LS in H. discriminate.
    + unfold cholesky_all in ELs. destruct (all_below _ _); [discriminate|]. cbn [snd] in H. congruence.
  - discriminate.
  - cbn [fst snd] in *. injection H as ->.
    destruct (complete_call (c_st c) (channel_args a)) eqn:C.
    + exfalso. revert E. unfold set_topology. unfold complete_call in C. rewrite !andb_true_iff in C.
      destruct C as (((((-> & ->) & ->) & ->) & ->) & ->). cbn [negb].
      destruct (need_for_update _); [|discriminate].
      destruct (s_ut_loc _) as [ut|]; [|discriminate]. destruct (s_bs_loc _) as [bs|]; [|discriminate]. destruct (s_in _) as [ind|]; [|discriminate].
      unfold update_topology. unfold distance_2d. destruct (Nat.eqb _ _); [|discriminate].
      unfold distance_3d_and_angles. destruct (_ && _); [|discriminate]. unfold sample_indoor. destruct (_ && _); [|discriminate].
      destruct (los_prob_ok sc Ha) as (p & -> & _).
      match goal with |- context [compute_lsp_stat sc ?d ?l] => destruct (lsp_stat_ok sc d l Ha) as (cl & cn & _ & _ & ->) end.
      match goal with |- context [compute_pathlosses sc ?w ?d ?l ?x ?y] => destruct (pathlosses_ok sc w d l x y Ha) as (c1 & c2 & c3 & _ & _ & _ & ->) end.
      discriminate.
    + destruct (set_topology_incomplete sc (c_st c) (channel_args a) dr C) as (m' & E'). rewrite E' in E. injection E as <- _. apply with_state_same.
Qed.

(* ---- a complete topology forgets what came before ---- *)
Lemma set_full sc st1 st2 ut bs uo bo vel ind l dr : s_doppler st1 = s_doppler st2 ->
  let a := channel_args (full_args ut bs uo bo vel ind (Some l)) in
  snd (set_topology sc st1 a dr) = snd (set_topology sc st2 a dr) /\
  (snd (set_topology sc st1 a dr) = Ok true -> fst (set_topology sc st1 a dr) = fst (set_topology sc st2 a dr)) /\
  snd (set_topology sc st1 a dr) <> Ok false.
Proof.
  intros D. cbv zeta. unfold set_topology. cbn [channel_args full_args a_ut_loc a_bs_loc a_in a_ut_ori a_bs_ori a_ut_vel a_los a_weather a_doppler given orb negb need_for_update].
  cbn [store_args s_ut_loc s_bs_loc s_in s_req_los channel_args full_args a_ut_loc a_bs_loc a_in a_ut_ori a_bs_ori a_ut_vel a_los a_weather a_doppler or_else dflt].
  unfold store_args. cbn [channel_args full_args a_ut_loc a_bs_loc a_in a_ut_ori a_bs_ori a_ut_vel a_los a_weather a_doppler or_else dflt]. rewrite D.
  unfold update_topology.
  destruct (distance_2d ut bs) as [d2|e]; [|split; [reflexivity|]; split; discriminate].
  destruct (distance_3d_and_angles (sc_elev sc) ut bs) as [g|e]; [|split; [reflexivity|]; split; discriminate].
  destruct (sample_indoor d2 (g_d3d g) ut ind (dr_indoor dr)) as [i|e]; [|split; [reflexivity|]; split; discriminate].
  destruct (pv <- los_probability sc;; num_of pv) as [p|e]; [|split; [reflexivity|]; split; discriminate].
  cbn [s_req_los with_d2d with_geo].
  destruct (compute_lsp_stat sc d2 _) as [ls|e]; [|split; [reflexivity|]; split; discriminate].
  destruct (compute_pathlosses sc _ _ _ _ _) as [pl|e]; [|split; [reflexivity|]; split; discriminate].
  split; [reflexivity|]. split; [intros _; reflexivity|discriminate].
Qed.

Lemma C103_recovery_l : forall sc al before ut bs uo bo vel ind l dr z,
  let a := full_args ut bs uo bo vel ind (Some l) in
  let used := chan_set_topology sc al (chan_run sc al (chan_init sc) before) a dr z in
  let fresh := chan_set_topology sc al (chan_init sc) a dr z in
  snd used = snd fresh /\
  (snd used = Ok tt -> forall srt srtd ua ba fs d,
     chan_call srt srtd sc ua ba al (fst used) fs d = chan_call srt srtd sc ua ba al (fst fresh) fs d).
Proof.
  intros sc al before ut bs uo bo vel ind l dr z a used fresh.
  set (c := chan_run sc al (chan_init sc) before) in *.
  assert (D : s_doppler (c_st c) = s_doppler (c_st (chan_init sc))) by apply chan_doppler.
  destruct (set_full sc _ _ ut bs uo bo vel ind l dr D) as (E1 & E2 & E3). cbv zeta in E1, E2, E3. fold a in E1, E2, E3.
  unfold used, fresh, chan_set_topology.
  destruct (set_topology sc (c_st c) (channel_args a) dr) as [s1 r1]. destruct (set_topology sc (c_st (chan_init sc)) (channel_args a) dr) as [s2 r2].
  cbn [fst snd] in E1, E2, E3. subst r2. destruct r1 as [[]|e].
  - specialize (E2 eq_refl). subst s2. destruct (sizes s1) as [[nb ns] nu].
    destruct (m <- cross_matrix s1;; cholesky_all nb ns nu 7 m) as [Lx|e]; [|split; [reflexivity|discriminate]].
    destruct (m <- spatial_matrix s1;; cholesky_all nb ns 7 nu m) as [Ls|e]; [|split; [reflexivity|discriminate]].
    destruct (compute_clusters_mask s1) as [mk|e]; [|split; [reflexivity|discriminate]].
    destruct al.
    + split; [reflexivity|]. intros _ srt srtd ua ba fs d. reflexivity.
    + change (lsp_sampler (with_mask (with_spatial (with_cross (with_state c s1) Lx) Ls) mk) z)
        with (lsp_sampler (with_mask (with_spatial (with_cross (with_state (chan_init sc) s1) Lx) Ls) mk) z).
      destruct (lsp_sampler _ z) as [ll|e]; [|split; [reflexivity|discriminate]].
      split; [reflexivity|]. intros _ srt srtd ua ba fs d. reflexivity.
  - exfalso. apply E3. reflexivity.
  - split; [reflexivity|discriminate].
Qed.

(* ---- two stations ---- *)
Lemma C103_stations_l : forall sc al ops a dr z a' dr' z' bs2, constructed sc -> settled sc al ops a dr z ->
  let c := chan_run sc al (chan_init sc) ops in
  a_bs_loc a' = Some bs2 -> t_num bs2 <> 1%nat ->
  (exists e, snd (chan_set_topology sc al c a' dr' z') = Err e) /\
  forall srt srtd ua ba fs d,
    (exists o, chan_call srt srtd sc ua ba al c fs d = Ok o) /\
    (exists e, chan_call srt srtd sc ua ba al (fst (chan_set_topology sc al c a' dr' z')) fs d = Err e).
Proof.
  intros sc al ops a dr z a' dr' z' bs2 Hc Hs c HB HN.
  assert (F : exists e, snd (chan_set_topology sc al c a' dr' z') = Err e /\
              s_bs_loc (c_st (fst (chan_set_topology sc al c a' dr' z'))) = Some bs2).
  { destruct (settled_content _ _ _ _ _ _ Hc Hs) as (ut & bs & ind & p & g & los & cl & cn & ls & pl & Lx & Ls & A1 & A2 & A3 & _).
    fold c in A1, A2, A3.
    destruct (call_defined (fun _ => []) (fun _ => []) omni_array omni_array _ _ _ _ _ _ 1
       {| cd_lsp := fun _ _ _ _ => 0; cd_rays := plain_draws (fun _ => / 2); cd_dir := fun _ => 0; cd_phase := fun _ _ _ _ _ _ => 0 |} Hc Hs) as [o O]. fold c in O.
    destruct (C31_axes_l _ _ _ _ _ _ _ _ _ _ O) as (? & ? & ? & vel & uo & bo & ? & ? & ? & ? & ? & _ & _ & _ & D4 & D5 & D6 & _).
    unfold chan_set_topology, set_topology.
    cbn [channel_args a_ut_loc a_bs_loc a_in a_ut_ori a_bs_ori a_ut_vel]. rewrite A1, A2, A3, D4, D5, D6, HB. cbn [given]. rewrite !orb_true_r. cbn [negb].
    unfold need_for_update. cbn [channel_args a_ut_loc a_bs_loc a_in a_los]. rewrite HB. cbn [given]. rewrite orb_true_r. cbn [orb].
    cbn [store_args s_ut_loc s_bs_loc s_in channel_args a_ut_loc a_bs_loc a_in]. rewrite A1, A3, HB. cbn [or_else].
    destruct (or_else (a_ut_loc a') (Some ut)) as [ut2|] eqn:Q1; [|destruct (a_ut_loc a'); discriminate].
    destruct (or_else (a_in a') (Some ind)) as [ind2|] eqn:Q2; [|destruct (a_in a'); discriminate].
    unfold update_topology. unfold distance_2d. destruct (Nat.eqb (t_batch ut2) (t_batch bs2)).
    - unfold distance_3d_and_angles. apply Nat.eqb_neq in HN. rewrite HN. cbn [andb fst snd]. eexists. split; [reflexivity|].
      cbn. rewrite HB. reflexivity.
    - eexists. split; [reflexivity|]. cbn. rewrite HB. reflexivity. }
  destruct F as (e & F1 & F2). split; [eauto|]. intros srt srtd ua ba fs d. split; [exact (call_defined srt srtd ua ba _ _ _ _ _ _ fs d Hc Hs)|].
  destruct (chan_call srt srtd sc ua ba al (fst (chan_set_topology sc al c a' dr' z')) fs d) as [o|e'] eqn:O; [|eauto].
  exfalso. destruct (C31_axes_l _ _ _ _ _ _ _ _ _ _ O) as (? & ? & ? & vel & uo & bo & bs & ? & ? & ? & ? & _ & _ & _ & _ & _ & _ & D7 & _ & _ & _ & D11 & _).
  congruence.
Qed.

(* ---- UTs on top of each other: the scenario has moved on, the samplers have not ---- *)
Lemma refused_content sc al c a dr z st : constructed sc -> set_topology sc (c_st c) (channel_args a) dr = (st, Ok true) ->
  snd (chan_set_topology sc al c a dr z) <> Ok tt ->
  let c' := fst (chan_set_topology sc al c a dr z) in
  c_st c' = st /\ c_spatial c' = c_spatial c /\ c_mask c' = c_mask c /\ c_lsp c' = c_lsp c /\ (exists Lx, c_cross c' = Some Lx) /\
  (exists e, snd (chan_set_topology sc al c a dr z) = Err e).
Proof.
  intros Hc E H. cbv zeta.
  destruct (scenario_update sc c a dr st Hc E) as (ut & bs & Cm & Sm & mask & U & B & B1 & B2 & EC & ES & EM & (Lx & EX) & (ls & LS) & _).
  revert H. unfold chan_set_topology. rewrite E. unfold sizes. rewrite U, B, EC. cbn [bind]. rewrite EX, ES. cbn [bind].
  destruct (cholesky_all (t_batch ut) (t_num bs) 7 (t_num ut) Sm) as [Ls|e].
  - rewrite EM. destruct al; [intros H; exfalso; apply H; reflexivity|]. unfold lsp_sampler. cbn [c_st c_cross c_spatial with_mask with_spatial with_cross with_state].
    rewrite U. unfold sample_lsp. rewrite LS. intros H; exfalso; apply H; reflexivity.
  - intros _. cbn. do 4 (split; [reflexivity|]). split; eauto.
Qed.

Lemma C103_answered_l : forall sc al ops a dr z a' dr' z' st, constructed sc -> settled sc al ops a dr z ->
  let c := chan_run sc al (chan_init sc) ops in
  let c' := fst (chan_set_topology sc al c a' dr' z') in
  set_topology sc (c_st c) (channel_args a') dr' = (st, Ok true) -> sizes st = sizes (c_st c) ->
  snd (chan_set_topology sc al c a' dr' z') <> Ok tt ->
  c_st c' = st /\ c_spatial c' = c_spatial c /\ c_mask c' = c_mask c /\ c_lsp c' = c_lsp c /\
  forall srt srtd ua ba fs d, exists o, chan_call srt srtd sc ua ba al c' fs d = Ok o.
Proof.
  intros sc al ops a dr z a' dr' z' st Hc Hs c c' E _ N. assert (Ha := constructed_accepted sc Hc).
  destruct (refused_content sc al c a' dr' z' st Hc E N) as (R1 & R2 & R3 & R4 & (Lx & R5) & _). fold c' in R1, R2, R3, R4, R5.
  do 4 (split; [assumption|]). intros srt srtd ua ba fs d.
  destruct (settled_content _ _ _ _ _ _ Hc Hs) as (ut & bs & ind & p & g & los & cl & cn & ls & pl & Lx0 & Ls &
    A1 & A2 & A3 & A4 & A5 & A6 & A7 & A8 & A9 & A10 & A11 & A12 & A13 & A14 & A15 & A16 & A17 & A18 & A19 & A20 & A21 & A22 & A23 & A24).
  fold c in A1, A2, A3, A7, A10, A11, A14, A16, A18, A19, A20, A23, A24.
  destruct (call_defined srt srtd ua ba _ _ _ _ _ _ fs d Hc Hs) as [o O]. fold c in O.
  destruct (C31_axes_l _ _ _ _ _ _ _ _ _ _ O) as (? & ? & ? & vel & uo & bo & ? & ? & ? & ? & ? & _ & _ & _ & D4 & D5 & D6 & _).
  destruct (update_content _ _ _ _ _ Ha E) as (ut' & bs' & ind' & p' & X1 & X2 & X3 & X4 & X5 & X6 & X7 & X8 & X9 & X10 & X11 &
    (g' & G0 & _) & (los' & L1 & L2 & cl' & cn' & K1 & K2 & K3 & pl' & P1 & P2) & _).
  assert (ORI : s_ut_vel st <> None /\ s_ut_ori st <> None /\ s_bs_ori st <> None).
  { destruct (step_cases _ _ _ _ _ _ Ha E) as [(_ & _ & [m Hm]) | (_ & _ & I & _)]; [discriminate|].
    unfold same_inputs in I. cbn [store_args s_ut_vel s_ut_ori s_bs_ori] in I. destruct I as (_ & _ & I3 & I4 & I5 & _).
    assert (OE : forall A (x : option A) y, or_else x (Some y) <> None) by (intros ? [?|] ?; discriminate).
    rewrite I3, I4, I5, D4, D5, D6. split; [apply OE|]. split; apply OE. }
  destruct ORI as (O1 & O2 & O3).
  unfold chan_call. rewrite R1, R3, R4, A20.
  assert (LS : exists l, (if al then lsp_sampler c' (cd_lsp d) else match c_lsp c with Some l => Ok l | None => Err (AttributeError "_lsp") end) = Ok l).
  { destruct al.
    - unfold lsp_sampler. rewrite R1, X1, R5, R2, A19. unfold sample_lsp. rewrite K3. eauto.
    - destruct (A23 eq_refl) as (l & _ & ->). eauto. }
  destruct LS as [l ->]. cbn [bind]. unfold gen_rays. rewrite K3, L1, G0, X3, X2. cbn [bind].
  destruct (s_ut_vel st); [|congruence]. destruct (s_ut_ori st); [|congruence]. destruct (s_bs_ori st); [|congruence].
  rewrite X5. cbn [Nat.eqb negb]. unfold sample_pathloss. rewrite P1.
  destruct (sc_pathloss sc); cbn [bind]; eauto.
Qed.

(* the first UT stays where it is, the second is moved by d *)
Definition pair_args (d : R) : topo_args :=
  full_args (T 1 2 (fun _ u => V3 (600000 + d * INR u) 0 0)) (t1 (V3 0 0 600000)) (T 1 2 (fun _ _ => V3 0 0 0)) (t1 (V3 0 0 0))
    (T 1 2 (fun _ _ => V3 0 0 0)) (T 1 2 (fun _ _ => false)) (Some true).

Lemma pair_scenario sc st d dr : constructed sc -> exists st',
  set_topology sc st (channel_args (pair_args d)) dr = (st', Ok true) /\
  s_ut_loc st' = a_ut_loc (pair_args d) /\ s_bs_loc st' = a_bs_loc (pair_args d) /\ s_ut_ori st' = a_ut_ori (pair_args d) /\
  s_bs_ori st' = a_bs_ori (pair_args d) /\ s_ut_vel st' = a_ut_vel (pair_args d) /\ s_in st' = a_in (pair_args d) /\ s_req_los st' = Some true /\
  (exists los, s_los st' = Some los /\ forall b s u, los b s u = true).
Proof.
  intros Hc. assert (Ha := constructed_accepted sc Hc).
  destruct (full_call sc st (T 1 2 (fun _ u => V3 (600000 + d * INR u) 0 0)) (t1 (V3 0 0 600000)) (T 1 2 (fun _ _ => V3 0 0 0)) (t1 (V3 0 0 0))
     (T 1 2 (fun _ _ => V3 0 0 0)) (T 1 2 (fun _ _ => false)) (Some true) no_weather None dr Ha eq_refl eq_refl (le_n 1) eq_refl eq_refl)
    as (st' & H & A & B & C & D & E & F).
  exists st'. split; [exact H|]. do 6 (split; [assumption|]).
  assert (RQ : s_req_los st' = Some true).
  { destruct (step_cases _ _ _ _ _ _ Ha H) as [(_ & _ & [m Hm]) | (_ & _ & I & _)]; [discriminate|].
    unfold same_inputs in I. cbn [store_args s_req_los a_los or_else] in I. intuition congruence. }
  split; [exact RQ|].
  destruct (update_content _ _ _ _ _ Ha H) as (ut & bs & ind & p & _ & _ & U3 & _ & _ & _ & _ & _ & _ & _ & _ & _ & (los & L1 & L2 & _) & _).
  exists los. split; [exact L1|]. intros b s u. rewrite L2, RQ. assert (ind = T 1 2 (fun _ _ => false)) by congruence. subst ind.
  reflexivity.
Qed.

Lemma pair_outcome sc al c d dr z : constructed sc ->
  snd (chan_set_topology sc al c (pair_args d) dr z) = Ok tt <-> d <> 0.
Proof.
  intros Hc. destruct (pair_scenario sc (c_st c) d dr Hc) as (st' & H & A & _ & _ & _ & _ & B & _ & (los & L & LL)).
  destruct (C68_l sc al c (pair_args d) dr z st' Hc H) as (ut & ind & los2 & A1 & B1 & L1 & Iff).
  cbn [pair_args full_args a_ut_loc a_in] in A, B.
  assert (ut = T 1 2 (fun _ u => V3 (600000 + d * INR u) 0 0)) by congruence. subst ut.
  assert (ind = T 1 2 (fun _ _ => false)) by congruence. subst ind. assert (los2 = los) by congruence. subst los2.
  rewrite Iff. cbn [t_batch t_num t_at vx vy]. split.
  - intros K -> . destruct (K 0 0 1)%nat as [Q|Q]; try lia; [rewrite !LL; reflexivity|cbn in Q; lra|lra].
  - intros D b u u' Hb Hu Hu' Ne _. left. intros E. apply Ne.
    assert (INR u = INR u') by (apply (Rmult_eq_reg_l d); lra). apply INR_eq. assumption.
Qed.

Lemma settled_one sc al a dr z c1 : changes_topology a -> chan_set_topology sc al (chan_init sc) a dr z = (c1, Ok tt) ->
  settled sc al [SetTopology a dr z] a dr z /\ chan_run sc al (chan_init sc) [SetTopology a dr z] = c1.
Proof.
  intros Ch E. split.
  - exists [], []. split; [reflexivity|]. split; [exact Ch|]. split; [cbn; rewrite E; reflexivity|]. intros a' dr' z' [].
  - cbn [chan_run fold_left chan_step]. rewrite E. reflexivity.
Qed.

Lemma C103_used_l : forall srt srtd sc, valid_argsort srt -> valid_argsort_desc srtd -> constructed sc ->
  sc_pathloss sc = true -> sc_shadow sc = false ->
  exists z c c' dr' e d o o' h h',
    chan_set_topology sc false (chan_init sc) (pair_args 100) no_draws z = (c, Ok tt) /\
    chan_set_topology sc false c (pair_args 0) dr' z = (c', Err e) /\
    chan_call srt srtd sc omni_array omni_array false c 1e6 d = Ok o /\
    chan_call srt srtd sc omni_array omni_array false c' 1e6 d = Ok o' /\
    link_coefficient (sc_dir sc) o 0 0 0 0 0 0 0 = Some h /\ link_coefficient (sc_dir sc) o' 0 0 0 0 0 0 0 = Some h' /\
    h <> c0 /\ h' = cmul h (creal (1 / 10)).
Proof.
  intros srt srtd sc V VD Hc Hp Hsh. assert (Ha := constructed_accepted sc Hc).
  destruct (omni_link srt srtd sc V VD Hc) as (z & d & c1 & o1 & los0 & h & E1 & _ & _ & O1 & H1 & NZ).
  assert (Ch1 : changes_topology (one_ut (V3 600000 0 0) false (Some true))) by (left; discriminate).
  destruct (settled_one sc false _ _ _ _ Ch1 E1) as [S1 Q1].
  destruct (chan_set_topology sc false (chan_init sc) (pair_args 100) no_draws z) as [c r] eqn:E.
  assert (r = Ok tt). { assert (Q := proj2 (pair_outcome sc false (chan_init sc) 100 no_draws z Hc)). rewrite E in Q. apply Q. lra. } subst r.
  assert (Ch : changes_topology (pair_args 100)) by (left; discriminate).
  destruct (settled_one sc false _ _ _ _ Ch E) as [S2 Q2].
  destruct (pair_scenario sc (c_st (chan_init sc)) 100 no_draws Hc) as (st & ST & U1 & U2 & U3 & U4 & U5 & U6 & U7 & (los & L1 & LL)).
  destruct (change_ok _ _ _ _ _ _ _ E Ch) as (ST0 & _). assert (EC : c_st c = st) by congruence.
  destruct (change_ok _ _ _ _ _ _ _ E1 Ch1) as (ST1 & _).
  (* the first UT alone has the same channel *)
  assert (SE : same_example 1 0 0 (c_st c1) (c_st c)).
  { destruct (step_cases _ _ _ _ _ _ Ha ST1) as [(_ & _ & [m Hm]) | (_ & _ & I & _)]; [discriminate|].
    unfold same_inputs in I. cbn [store_args s_ut_loc s_bs_loc s_ut_ori s_bs_ori s_ut_vel s_in s_req_los channel_args one_ut a_ut_loc a_bs_loc a_ut_ori a_bs_ori a_ut_vel a_in a_los or_else] in I.
    destruct I as (I1 & I2 & I3 & I4 & I5 & I6 & I7 & _). rewrite EC.
    cbn [pair_args full_args a_ut_loc a_bs_loc a_ut_ori a_bs_ori a_ut_vel a_in] in U1, U2, U3, U4, U5, U6.
    constructor.
    - eexists _, _. split; [exact I1|]. split; [exact U1|]. cbn [t1 t_batch t_num t_at]. repeat split; try lia. intros i Hi. replace i with 0%nat by lia. cbn [INR]. f_equal; lra.
    - eexists _, _. split; [exact I6|]. split; [exact U6|]. cbn [t1 t_batch t_num t_at]. repeat split; lia.
    - eexists _, _. split; [exact I2|]. split; [exact U2|]. cbn [t1 t_batch t_num t_at]. repeat split; lia.
    - intros v w W1 W2. congruence.
    - intros v w u W1 W2 _. rewrite I3 in W1. rewrite U3 in W2. injection W1 as <-. injection W2 as <-. reflexivity.
    - intros v w u W1 W2 _. rewrite I5 in W1. rewrite U5 in W2. injection W1 as <-. injection W2 as <-. reflexivity.
    - intros v w W1 W2. congruence.
    - congruence. }
  destruct (C90_l srt srtd omni_array omni_array sc false _ _ _ _ _ _ _ _ 1e6 d d 1 0 0 Hc S1 S2) as (o1' & o & O1' & O & EQ).
  { rewrite Q1, Q2. exact SE. }
  { split; reflexivity. } { intros u j _. reflexivity. } { split; try reflexivity; split; reflexivity. }
  rewrite Q1 in O1'. rewrite Q2 in O. assert (o1' = o1) by congruence. subst o1'.
  destruct (EQ 0 0 0 0 0 ltac:(lia))%nat as [HC _]. rewrite H1 in HC. clear EQ.
  (* now the refused topology *)
  destruct (pathloss_composed _ _ _ _ _ Hc ST) as (los' & g & f & sl & sn & cl & P1 & P2 & P3 & P4 & P5 & P6 & _ & _ & _ & P7).
  assert (los' = los) by congruence. subst los'. assert (SL := sigmaSF_pos sc true sl Ha P4).
  set (dr' := with_sf_draws (fun _ _ _ => 20 / sl) (fun _ _ _ => 0) no_draws).
  destruct (pair_scenario sc (c_st c) 0 dr' Hc) as (st' & ST' & V1 & V2 & V3 & V4 & V5 & V6 & V7 & (los2 & L2 & LL2)).
  assert (NOK : snd (chan_set_topology sc false c (pair_args 0) dr' z) <> Ok tt).
  { intros Q. apply (pair_outcome sc false c 0 dr' z Hc) in Q. apply Q. reflexivity. }
  destruct (refused_content sc false c (pair_args 0) dr' z st' Hc ST' NOK) as (R1 & R2 & R3 & R4 & _ & (e & R6)).
  assert (ANS := C103_answered_l sc false _ _ _ _ (pair_args 0) dr' z st' Hc S2). cbv zeta in ANS. rewrite Q2 in ANS.
  destruct (ANS ST') as (_ & _ & _ & _ & ANS'); [rewrite EC; unfold sizes; rewrite U1, U2, V1, V2; reflexivity|exact NOK|].
  clear ANS. destruct (ANS' srt srtd omni_array omni_array 1e6 d) as [o' O']. clear ANS'.
  destruct (chan_set_topology sc false c (pair_args 0) dr' z) as [c' r'] eqn:E'. cbn [fst snd] in *. subst r'.
  exists z, c, c', dr', e, d, o, o', h, (cmul h (creal (1 / 10))).
  split; [exact E|]. split; [exact E'|]. split; [exact O|]. split; [exact O'|]. split; [symmetry; exact HC|].
  split; [|split; [exact NZ|reflexivity]].
  destruct (pathloss_composed _ _ _ _ _ Hc ST') as (los3 & g' & f' & sl' & sn' & cl' & P1' & P2' & P3' & P4' & P5' & P6' & _ & _ & _ & P7').
  assert (los3 = los2) by congruence. subst los3.
  assert (SLE := documented_value_fun _ _ _ _ _ _ _ _ P4' P4). injection SLE as ->.
  assert (CLE := documented_value_fun _ _ _ _ _ _ _ _ P6' P6). injection CLE as ->.
  assert (ELOS : los2 = los) by (extensionality b; extensionality s; extensionality u; rewrite LL, LL2; reflexivity). subst los2.
  destruct (update_content _ _ _ _ _ Ha ST) as (ut & bs & ind & pp & X1 & X2 & X3 & _ & _ & _ & _ & _ & _ & _ & _ &
    (g1 & G0 & G1 & G2 & G3 & G4 & G5 & _) & (los1 & X4 & _ & cl1 & cn1 & K1 & K2 & K3 & _) & _).
  destruct (update_content _ _ _ _ _ Ha ST') as (ut' & bs' & ind' & pp' & X1' & X2' & X3' & _ & _ & _ & _ & _ & _ & _ & _ &
    (g2 & G0' & G1' & G2' & G3' & G4' & G5' & _) & (los1' & X4' & _ & cl2 & cn2 & K1' & K2' & K3' & _) & _).
  assert (g1 = g) by congruence. assert (g2 = g') by congruence. assert (los1 = los) by congruence. assert (los1' = los) by congruence.
  assert (cl2 = cl1) by congruence. assert (cn2 = cn1) by congruence. subst g1 g2 los1 los1' cl2 cn2.
  rewrite U1 in X1. rewrite V1 in X1'. rewrite U2 in X2. rewrite V2 in X2'. rewrite U6 in X3. rewrite V6 in X3'.
  cbn [pair_args full_args a_ut_loc a_bs_loc a_in] in X1, X1', X2, X2', X3, X3'.
  injection X1 as <-. injection X1' as <-. injection X2 as <-. injection X2' as <-. injection X3 as <-. injection X3' as <-.
  cbn [t1 t_at vz] in G1, G2, G3, G4, G5, G1', G2', G3', G4', G5', K3, K3'.
  assert (POS : forall x, 600000 + x * INR 0 = 600000) by (intros x; cbn [INR]; ring).
  assert (GE : (g_d3d g 0 0 0 = g_d3d g' 0 0 0 /\ g_aod g 0 0 0 = g_aod g' 0 0 0 /\ g_aoa g 0 0 0 = g_aoa g' 0 0 0 /\
               g_zod g 0 0 0 = g_zod g' 0 0 0 /\ g_zoa g 0 0 0 = g_zoa g' 0 0 0)%nat).
  { rewrite G1, G2, G3, G4, G5, G1', G2', G3', G4', G5', !POS. auto. }
  destruct GE as (GE1 & GE2 & GE3 & GE4 & GE5).
  destruct (C31_axes_l _ _ _ _ _ _ _ _ _ _ O) as (lsps & mask & rr & vel & uo & bo & bs1 & g1 & los1 & ls & pl & D1 & D2 & D3 & D4 & D5 & D6 & D7 & D8 & D9 & D10 & D11 & D12 & D13).
  destruct (C31_axes_l _ _ _ _ _ _ _ _ _ _ O') as (lsps' & mask' & rr' & vel' & uo' & bo' & bs1' & g1' & los1' & ls' & pl' & F1 & F2 & F3 & F4 & F5 & F6 & F7 & F8 & F9 & F10 & F11 & F12 & F13).
  rewrite EC in *. rewrite R1 in *. unfold used_lsps in D1, F1.
  assert (lsps' = lsps) by congruence. assert (mask' = mask) by congruence. subst lsps' mask'.
  assert (g1 = g) by congruence. assert (g1' = g') by congruence. assert (los1 = los) by congruence. assert (los1' = los) by congruence. subst g1 g1' los1 los1'.
  assert (RE : (rr 0 0 0 = rr' 0 0 0)%nat).
  { unfold gen_rays in D3, F3. rewrite K3, L1, P2, U6, U2 in D3. rewrite K3', L2, P2', V6, V2 in F3.
    cbn [pair_args full_args a_in a_bs_loc] in D3, F3. injection D3 as <-. injection F3 as <-.
    cbn [ls_zod_offset ls_mean ls_col]. unfold num_clusters_max, n_clusters. cbn [ls_col]. rewrite !POS.
    unfold link_rays. cbv zeta. rewrite GE2, GE3, GE4, GE5. reflexivity. }
  specialize (D13 0%nat 0%nat 0%nat). specialize (F13 0%nat 0%nat 0%nat). cbv zeta in D13, F13. rewrite <- RE in F13.
  assert (TE : down_link sc st vel uo bo bs1 g los (cd_dir d) 0 0 0 = down_link sc st' vel' uo' bo' bs1' g' los (cd_dir d) 0 0 0).
  { cbn [pair_args full_args a_ut_ori a_bs_ori a_ut_vel a_bs_loc] in U2, U3, U4, U5, V2, V3, V4, V5.
    assert (vel' = vel) by congruence. assert (uo' = uo) by congruence. assert (bo' = bo) by congruence. assert (bs1' = bs1) by congruence. subst vel' uo' bo' bs1'.
    unfold down_link. rewrite GE1, GE2, GE3, GE4, GE5.
    replace (s_doppler st') with (s_doppler st); [reflexivity|].
    assert (Q := set_topology_doppler sc st (channel_args (pair_args 0)) dr' eq_refl). rewrite ST' in Q. cbn [fst] in Q. congruence. }
  rewrite <- TE in F13.
  assert (CE : ls_col ls = ls_col ls').
  { rewrite K3 in D10. rewrite K3' in F10. injection D10 as <-. injection F10 as <-. reflexivity. }
  rewrite <- CE in F13. rewrite Hp, Hsh in D13, F13.
  assert (PE : Rpower 10 (- pl' 0%nat 0%nat 0%nat / 20) = Rpower 10 (- pl 0%nat 0%nat 0%nat / 20) * (1 / 10)).
  { specialize (D12 Hp). specialize (F12 Hp). assert (f = pl) by congruence. assert (f' = pl') by congruence. subst f f'.
    rewrite P7, P7', LL, GE1. cbn [dr' with_sf_draws dr_z_los no_draws channel_args a_weather].
    set (A := free_space _ _). set (B := pl_gas _ _ _). set (S := pl_scint _ _ _).
    replace (- (A + sl * (20 / sl) + B + S) / 20) with (- (A + sl * 0 + B + S) / 20 + - (1)) by (field; lra).
    rewrite Rpower_plus. f_equal. rewrite Rpower_Ropp, Rpower_1 by lra. lra. }
  destruct (rr 0 0 0)%nat as [y|].
  - destruct (D13 0 0 0 0)%nat as [_ Z1]. destruct (F13 0 0 0 0)%nat as [_ Z2].
    rewrite <- HC in Z1. rewrite Z2.
    set (w := if String.eqb (sc_dir sc) "uplink" then _ else _) in Z1, Z2 |- *. 
    destruct w as [x|]; [|discriminate]. cbn [option_map] in *. injection Z1 as ->. f_equal.
    rewrite PE. apply cplx_eq; cbn; ring.
  - destruct (D13 0 0 0 0)%nat as [Z1 _]. congruence.
Qed.

(* the hypotheses are met *)
Lemma C103_cases_l : forall sc al z, constructed sc ->
  let ops := [SetTopology (pair_args 100) no_draws z] in
  let c := chan_run sc al (chan_init sc) ops in
  settled sc al ops (pair_args 100) no_draws z /\
  (exists bs2, a_bs_loc two_bs = Some bs2 /\ t_num bs2 <> 1%nat) /\
  (exists st, set_topology sc (c_st c) (channel_args (pair_args 0)) no_draws = (st, Ok true) /\ sizes st = sizes (c_st c)) /\
  snd (chan_set_topology sc al c (pair_args 0) no_draws z) <> Ok tt /\
  snd (chan_set_topology sc al (fst (chan_set_topology sc al c (pair_args 0) no_draws z)) (pair_args 50) no_draws z) = Ok tt /\
  (exists m, snd (chan_set_topology sc al (chan_init sc) two_bs no_draws z) = Err (AssertionError m)).
Proof.
  intros sc al z Hc ops c.
  destruct (chan_set_topology sc al (chan_init sc) (pair_args 100) no_draws z) as [c1 r] eqn:E.
  assert (r = Ok tt). { assert (Q := proj2 (pair_outcome sc al (chan_init sc) 100 no_draws z Hc)). rewrite E in Q. apply Q. lra. } subst r.
  assert (Ch : changes_topology (pair_args 100)) by (left; discriminate).
  destruct (settled_one sc al _ _ _ _ Ch E) as [S2 Q2]. fold ops in S2, Q2. fold c in Q2.
  split; [exact S2|]. split; [eexists; split; [reflexivity|cbn; lia]|].
  destruct (pair_scenario sc (c_st (chan_init sc)) 100 no_draws Hc) as (st & ST & U1 & U2 & _).
  destruct (change_ok _ _ _ _ _ _ _ E Ch) as (ST0 & _). assert (EC : c_st c = st) by congruence.
  split.
  { destruct (pair_scenario sc (c_st c) 0 no_draws Hc) as (st' & ST' & V1 & V2 & _). exists st'. split; [exact ST'|].
    rewrite EC. unfold sizes. rewrite U1, U2, V1, V2. reflexivity. }
  split. { intros Q. apply (pair_outcome sc al c 0 no_draws z Hc) in Q. apply Q. reflexivity. }
  split; [apply pair_outcome; [exact Hc|lra]|]. eexists. reflexivity.
Qed.
