From Coq Require Import Reals String List Bool Arith Lia Lra ZArith.
From Verif Require Import M_Base L_Base M_Params S_Config L_Params L_Config M_Geometry M_Pathloss
  M_Scenario S_Topology L_Scenario L_Fresh L_Pathloss L_Geometry L_Trig.
Import ListNotations.
Open Scope string_scope.
Open Scope list_scope.
Open Scope R_scope.

Lemma constructed_accepted sc : constructed sc -> accepted sc.
Proof.
  intros (e & fc & ut & bs & d & el & pl & sh & dp & H). exact (proj1 (init_accepted _ _ _ _ _ _ _ _ _ _ H)).
Qed.

Definition ex_array : array_arg := {| aa_panel := true; aa_lambda := speed_of_light / 2e9 |}.

Lemma example_constructed : exists sc, constructed sc /\
  sc_elev sc = 45 /\ sc_fc sc = 2e9 /\ sc_dir sc = "downlink" /\ sc_env sc = Urban.
Proof.
  destruct (scenario_init Urban 2e9 ex_array ex_array "downlink" 45 true true true) as [sc | e] eqn:E.
  - exists sc. split; [repeat eexists; exact E|].
    destruct (init_accepted _ _ _ _ _ _ _ _ _ _ E) as (_ & A & B & C & D & _). auto.
  - exfalso.
    assert (H : is_ok (scenario_init Urban 2e9 ex_array ex_array "downlink" 45 true true true)).
    { apply construct_iff. unfold supported_config, in_S_band; cbn. repeat split; auto; lra. }
    rewrite E in H. destruct H as [? H]; discriminate || exact H.
Qed.

(* ---- C06 ---- *)
Lemma C06_stored_l sc ops : constructed sc ->
  latest_all (fun r => ~ rejected r) (trace sc (init_state sc) ops) (run sc (init_state sc) ops).
Proof. intros H. apply latest_stored, constructed_accepted, H. Qed.

Lemma C06_successful_l sc ops : constructed sc ->
  (forall o r, In (o, r) (trace sc (init_state sc) ops) -> successful r \/ rejected r) ->
  latest_all successful (trace sc (init_state sc) ops) (run sc (init_state sc) ops).
Proof. intros H. apply latest_successful, constructed_accepted, H. Qed.

Lemma doppler_latest sc ops v : constructed sc ->
  s_doppler (run sc (init_state sc) ops) = v <->
  is_latest (fun r => ~ rejected r) a_doppler (trace sc (init_state sc) ops) v \/
  (sc_doppler sc = v /\ forall o r, In (o, r) (trace sc (init_state sc) ops) -> ~ rejected r ->
     a_doppler (fst o) = None).
Proof.
  intros H. assert (Ha := constructed_accepted sc H).
  assert (L := latest_run sc (fun st => Some (s_doppler st)) a_doppler).
  assert (R1 : forall st a dr st' r, set_topology sc st a dr = (st', r) -> rejected r ->
                 Some (s_doppler st') = Some (s_doppler st)).
  { intros st a dr st' r E R. destruct (step_cases _ _ _ _ _ _ Ha E) as [(_ & -> & _) | (_ & N & _)];
    [reflexivity | contradiction]. }
  assert (R2 : forall st a dr st' r, set_topology sc st a dr = (st', r) -> ~ rejected r ->
                 Some (s_doppler st') = or_else (a_doppler a) (Some (s_doppler st))).
  { intros st a dr st' r E R. destruct (step_cases _ _ _ _ _ _ Ha E) as [(_ & _ & C) | (_ & _ & I & _)];
    [contradiction|]. destruct I as (_ & _ & _ & _ & _ & _ & _ & I). rewrite I. cbn.
    destruct (a_doppler a); reflexivity. }
  specialize (L R1 R2 ops (init_state sc) v). cbn beta in L.
  assert (Q : s_doppler (run sc (init_state sc) ops) = v <-> Some (s_doppler (run sc (init_state sc) ops)) = Some v)
    by (split; congruence).
  rewrite Q, L. cbn [init_state s_doppler].
  assert (Q' : Some (sc_doppler sc) = Some v <-> sc_doppler sc = v) by (split; congruence).
  rewrite Q'. reflexivity.
Qed.

Lemma two_bs_call sc st ut bs ind : accepted sc ->
  s_ut_loc st = Some ut -> s_bs_loc st = Some bs -> s_in st = Some ind ->
  (exists x, s_ut_ori st = Some x) -> (exists x, s_bs_ori st = Some x) -> (exists x, s_ut_vel st = Some x) ->
  exists st' m, set_topology sc st two_bs no_draws = (st', Err (InvalidArgumentError m)) /\
    s_ut_loc st' = a_ut_loc two_bs /\ s_d2d st' = Some (fun _ _ _ => dist_2d (V3 200 0 1.5) (V3 0 0 600000)) /\
    s_los st' = s_los st.
Proof.
  intros Ha H1 H2 H3 [x1 H4] [x2 H5] [x3 H6].
  unfold set_topology. cbn [two_bs a_ut_loc a_bs_loc a_in a_ut_ori a_bs_ori a_ut_vel].
  rewrite H1, H2, H3, H4, H5, H6. cbn [given negb orb].
  unfold need_for_update. cbn [two_bs a_ut_loc a_bs_loc a_in a_los given orb].
  cbn [store_args s_ut_loc s_bs_loc s_in two_bs a_ut_loc a_bs_loc a_in or_else]. rewrite H3.
  unfold update_topology, distance_2d, t1. cbn [t_batch Nat.eqb].
  unfold distance_3d_and_angles. cbn [t_num Nat.eqb andb].
  eexists _, _. split; [reflexivity|]. cbn. split; [reflexivity|]. split; reflexivity.
Qed.

Lemma first_state sc wa dr st' : accepted sc -> set_topology sc (init_state sc) (w_args wa) dr = (st', Ok true) ->
  s_ut_loc st' = a_ut_loc (w_args wa) /\ s_bs_loc st' = a_bs_loc (w_args wa) /\
  s_in st' = a_in (w_args wa) /\ s_ut_ori st' = a_ut_ori (w_args wa) /\
  s_bs_ori st' = a_bs_ori (w_args wa) /\ s_ut_vel st' = a_ut_vel (w_args wa) /\
  s_weather st' = Some (set_weather wa).
Proof.
  intros Ha E. destruct (step_cases _ _ _ _ _ _ Ha E) as [(_ & _ & [m C]) | (_ & _ & I & W)]; [discriminate|].
  destruct I as (I1 & I2 & I3 & I4 & I5 & I6 & _). cbn in *. auto 10.
Qed.

(* a failing call that is nevertheless partly in force *)
Lemma not_atomic : exists sc ops a dr,
  constructed sc /\
  (forall o r, In (o, r) (trace sc (init_state sc) ops) -> r = Ok true) /\
  let st := run sc (init_state sc) ops in
  let st' := fst (set_topology sc st a dr) in
  (exists e, snd (set_topology sc st a dr) = Err e) /\
  s_ut_loc st' = a_ut_loc a /\ s_ut_loc st' <> s_ut_loc st /\ s_d2d st' <> s_d2d st /\ s_los st' = s_los st.
Proof.
  destruct example_constructed as (sc & Hc & _). assert (Ha := constructed_accepted sc Hc).
  exists sc, [(w_args no_weather, no_draws)], two_bs, no_draws.
  destruct (first_call sc (init_state sc) no_weather no_draws Ha) as [st1 E1].
  assert (Es : step sc (init_state sc) (w_args no_weather, no_draws) = st1)
    by (unfold step; cbn [fst snd]; rewrite E1; reflexivity).
  split; [exact Hc|]. split.
  - intros o r [[= <- <-] | []]. cbn [fst snd]. rewrite E1. reflexivity.
  - cbn [run fold_left]. rewrite Es. cbv zeta.
    destruct (first_state _ _ _ _ Ha E1) as (F1 & F2 & F3 & F4 & F5 & F6 & _).
    destruct (two_bs_call sc st1 _ _ _ Ha F1 F2 F3 (ex_intro _ _ F4) (ex_intro _ _ F5) (ex_intro _ _ F6))
      as (st' & m & T1 & T2 & T3 & T4).
    rewrite T1. cbn [fst snd]. split; [eexists; reflexivity|]. split; [exact T2|].
    assert (P := PI_RGT_0).
    split; [| split; [| exact T4]].
    + rewrite T2, F1. cbn. unfold t1. intros [= Hf].
      apply (f_equal (fun f => vx (f 0%nat 0%nat))) in Hf. cbn in Hf. lra.
    + rewrite T3.
      destruct (update_content sc _ _ _ _ Ha E1) as (ut & bs & ind & p & U1 & U2 & _ & _ & _ & _ & _ & _ & _ & _ & U3 & _).
      rewrite U3. intros [= Hf]. apply (f_equal (fun f => f 0%nat 0%nat 0%nat)) in Hf. cbv beta in Hf.
      rewrite F1 in U1. rewrite F2 in U2. cbn in U1, U2. injection U1 as <-. injection U2 as <-.
      unfold t1 in Hf. cbn [t_at] in Hf.
      assert (K1 : forall x, 0 <= x -> dist_2d (V3 x 0 1.5) (V3 0 0 600000) = x).
      { intros x Hx. unfold dist_2d, sq; cbn [vx vy]. replace ((x - 0) * (x - 0) + (0 - 0) * (0 - 0)) with (x * x) by ring.
        apply sqrt_square, Hx. }
      rewrite !K1 in Hf by lra. lra.
Qed.

(* ---- C08 ---- *)
Lemma weather_last sc ops w : constructed sc ->
  s_weather (run sc (init_state sc) ops) = Some w <->
  exists pre o r post, trace sc (init_state sc) ops = pre ++ (o, r) :: post /\ ~ rejected r /\
    given_or_default (fst o) w /\ forall o' r', In (o', r') post -> rejected r'.
Proof.
  intros H. assert (Ha := constructed_accepted sc H).
  assert (L := latest_from_init sc s_weather (fun a => Some (set_weather (a_weather a))) ops eq_refl).
  rewrite L; clear L.
  - assert (G : forall a, given_or_default a w <-> set_weather (a_weather a) = w).
    { intros a. unfold given_or_default, set_weather, dflt. split.
      - intros (A1 & A2 & A3 & A4 & A5 & A6 & A7 & A8 & A9). destruct w. cbn in *. congruence.
      - intros <-. cbn. auto 10. }
    assert (D : forall r : res bool, rejected r \/ ~ rejected r).
    { intros [b | e]; [right; intros [m Hm]; discriminate|].
      destruct e; try (right; intros [m Hm]; discriminate). left; eexists; reflexivity. }
    unfold is_latest, counts_stored. split.
    + intros (pre & o & r & post & E & C & W & N). exists pre, o, r, post.
      split; [exact E|]. split; [exact C|]. split; [apply G; congruence|].
      intros o' r' I. destruct (D r') as [Dr | Dr]; [exact Dr|]. specialize (N o' r' I Dr). discriminate.
    + intros (pre & o & r & post & E & C & W & N). exists pre, o, r, post.
      split; [exact E|]. split; [exact C|]. split; [apply G in W; congruence|].
      intros o' r' I C'. exfalso. exact (C' (N o' r' I)).
  - intros st a dr st' r E R. destruct (step_cases _ _ _ _ _ _ Ha E) as [(_ & -> & _) | (_ & N & _)];
    [reflexivity | contradiction].
  - intros st a dr st' r E R. destruct (step_cases _ _ _ _ _ _ Ha E) as [(_ & _ & C) | (_ & _ & _ & W)];
    [contradiction | exact W].
Qed.

Definition get_vapor (a : topo_args) : option R := wa_vapor (a_weather a).

(* the second call of the two-call histories below *)
Lemma second_call sc wa1 wa2 : accepted sc ->
  exists st1 st2, set_topology sc (init_state sc) (w_args wa1) no_draws = (st1, Ok true) /\
    set_topology sc st1 (only_weather wa2) no_draws = (st2, Ok false) /\
    same_derived st1 st2 /\ s_weather st2 = Some (set_weather wa2) /\
    trace sc (init_state sc) [(w_args wa1, no_draws); (only_weather wa2, no_draws)] =
      [((w_args wa1, no_draws), Ok true); ((only_weather wa2, no_draws), Ok false)] /\
    run sc (init_state sc) [(w_args wa1, no_draws); (only_weather wa2, no_draws)] = st2.
Proof.
  intros Ha. destruct (first_call sc (init_state sc) wa1 no_draws Ha) as [st1 E1].
  destruct (first_state _ _ _ _ Ha E1) as (F1 & F2 & F3 & F4 & F5 & F6 & F7).
  cbn in F1, F2, F3, F4, F5, F6.
  exists st1, (store_args st1 (only_weather wa2)).
  assert (E2 : set_topology sc st1 (only_weather wa2) no_draws = (store_args st1 (only_weather wa2), Ok false)).
  { unfold set_topology. rewrite F1, F2, F3, F4, F5, F6. reflexivity. }
  split; [exact E1|]. split; [exact E2|]. split; [unfold same_derived; cbn; auto 10|].
  split; [reflexivity|].
  assert (Es : step sc (init_state sc) (w_args wa1, no_draws) = st1)
    by (unfold step; cbn [fst snd]; rewrite E1; reflexivity).
  cbn [trace run fold_left fst snd]. rewrite Es, E1, E2. cbn [fst snd].
  split; [reflexivity|]. unfold step. cbn [fst snd]. rewrite E2. reflexivity.
Qed.

Lemma weather_forgotten : exists sc ops v w,
  constructed sc /\
  (forall o r, In (o, r) (trace sc (init_state sc) ops) -> successful r) /\
  is_latest successful get_vapor (trace sc (init_state sc) ops) v /\
  s_weather (run sc (init_state sc) ops) = Some w /\ w_vapor w <> v.
Proof.
  destruct example_constructed as (sc & Hc & _). assert (Ha := constructed_accepted sc Hc).
  destruct (second_call sc dry no_weather Ha) as (st1 & st2 & _ & _ & _ & W & T & R).
  exists sc, [(w_args dry, no_draws); (only_weather no_weather, no_draws)], 0, (set_weather no_weather).
  split; [exact Hc|]. rewrite T, R. split; [| split; [| split; [exact W | cbn; lra]]].
  - intros o r [[= <- <-] | [[= <- <-] | []]]; eexists; reflexivity.
  - exists [], (w_args dry, no_draws), (Ok true), [((only_weather no_weather, no_draws), Ok false)].
    split; [reflexivity|]. split; [eexists; reflexivity|]. split; [reflexivity|].
    intros o' r' [[= <- <-] | []] _. reflexivity.
Qed.

(* ---- C09 ---- *)
Lemma derived_stale : exists sc ops w,
  constructed sc /\
  (forall o r, In (o, r) (trace sc (init_state sc) ops) -> successful r) /\
  s_weather (run sc (init_state sc) ops) = Some w /\
  forall dr st', set_topology sc (init_state sc) (current_args (run sc (init_state sc) ops) w) dr = (st', Ok true) ->
    ~ same_derived st' (run sc (init_state sc) ops).
Proof.
  destruct example_constructed as (sc & Hc & He & Hf & _). assert (Ha := constructed_accepted sc Hc).
  destruct (second_call sc no_weather dry Ha) as (st1 & st2 & E1 & E2 & D & W & T & R).
  exists sc, [(w_args no_weather, no_draws); (only_weather dry, no_draws)], (set_weather dry).
  split; [exact Hc|]. rewrite T, R. split; [| split; [exact W|]].
  - intros o r [[= <- <-] | [[= <- <-] | []]]; eexists; reflexivity.
  - intros dr st' E (_ & _ & _ & _ & _ & S).
    destruct D as (_ & _ & _ & _ & _ & D). rewrite <- D in S.
    destruct (update_content _ _ _ _ _ Ha E) as (? & ? & ? & ? & _ & _ & _ & _ & _ & _ & _ & _ & _ & _ & _ & _ & (los & _ & _ & cl & cn & _ & _ & _ & pl & Q1 & Q2) & _).
    destruct (update_content _ _ _ _ _ Ha E1) as (? & ? & ? & ? & _ & _ & _ & _ & _ & _ & _ & _ & _ & _ & _ & _ & (los1 & _ & _ & cl1 & cn1 & _ & _ & _ & pl1 & Q3 & Q4) & _).
    rewrite Q1, Q3 in S. injection S as S.
    match type of Q2 with compute_pathlosses sc ?w ?d ?l ?a ?b = _ =>
      destruct (pathlosses_ok sc w d l a b Ha) as (? & ? & ? & _ & _ & _ & P2) end.
    match type of Q4 with compute_pathlosses sc ?w ?d ?l ?a ?b = _ =>
      destruct (pathlosses_ok sc w d l a b Ha) as (? & ? & ? & _ & _ & _ & P4) end.
    rewrite P2 in Q2. injection Q2 as Q2. rewrite P4 in Q4. injection Q4 as Q4.
    rewrite <- Q2, <- Q4 in S. apply (f_equal (fun p => pl_g p 0%nat 0%nat 0%nat)) in S. cbn [pl_g] in S.
    assert (V := pl_gas_vapor (set_weather dry) (set_weather no_weather) (sc_fc sc) (sc_elev sc)).
    cbn [current_args a_weather w_args] in S. rewrite set_weather_explicit in S.
    assert (L : pl_gas (set_weather dry) (sc_fc sc) (sc_elev sc) < pl_gas (set_weather no_weather) (sc_fc sc) (sc_elev sc)).
    { apply V; cbn; try lra. rewrite Hf. left. unfold in_S_band. lra. }
    lra.
Qed.

Lemma derived_fresh_c sc ops : constructed sc ->
  (forall o r, In (o, r) (trace sc (init_state sc) ops) -> successful r \/ rejected r) ->
  (exists o r, In (o, r) (trace sc (init_state sc) ops) /\ successful r) ->
  exists o w st', latest_update (trace sc (init_state sc) ops) o /\ given_or_default (fst o) w /\
    set_topology sc (init_state sc) (current_args (run sc (init_state sc) ops) w) (snd o) = (st', Ok true) /\
    same_derived st' (run sc (init_state sc) ops) /\ same_inputs st' (run sc (init_state sc) ops).
Proof.
  intros Hc H1 H2. destruct (derived_fresh sc ops (constructed_accepted sc Hc) H1 H2) as (o & st' & A & B & C & D).
  exists o, (set_weather (a_weather (fst o))), st'. split; [exact A|].
  split; [unfold given_or_default, set_weather; cbn; auto 10|]. auto.
Qed.

(* ---- C12 ---- *)
Lemma los_semantics sc st a dr st' : constructed sc -> set_topology sc st a dr = (st', Ok true) ->
  exists los ind p,
    s_los st' = Some los /\ s_in st' = Some ind /\
    documented_value (sc_env sc) (sc_fc sc) (sc_dir sc) (sc_elev sc) true "LoS_p" (Fin p) /\
    forall b s u, los b s u = true <->
      t_at ind b u = false /\
      match s_req_los st' with Some r => r = true | None => dr_los dr b s u < p end.
Proof.
  intros Hc H. destruct (update_content _ _ _ _ _ (constructed_accepted sc Hc) H)
    as (ut & bs & ind & p & _ & _ & U3 & _ & _ & _ & _ & _ & P & _ & _ & _ & (los & L1 & L2 & _) & _).
  exists los, ind, p. split; [exact L1|]. split; [exact U3|]. split; [exact P|].
  intros b s u. rewrite L2. unfold sample_los. rewrite andb_true_iff, negb_true_iff.
  destruct (s_req_los st') as [r |]; [tauto|]. unfold bernoulli. rewrite Rltb_true. tauto.
Qed.

Lemma forced_los_persists sc ops rest r : constructed sc ->
  s_req_los (run sc (init_state sc) ops) = Some r ->
  (forall o, In o rest -> a_los (fst o) = None) ->
  s_req_los (run sc (init_state sc) (ops ++ rest)) = Some r.
Proof.
  intros Hc H N. rewrite run_app. apply req_los_persists; [exact (constructed_accepted sc Hc) | exact H | exact N].
Qed.

(* ---- C13 ---- *)
Lemma indoor_split sc st a dr st' : constructed sc -> set_topology sc st a dr = (st', Ok true) ->
  exists d2 g i ind,
    s_d2d st' = Some d2 /\ s_geo st' = Some g /\ s_ind st' = Some i /\ s_in st' = Some ind /\
    forall b s u, 0 <= dr_indoor dr b s u < 10 -> 0 < d2 b s u ->
      i_2d_in i b s u + i_2d_out i b s u = d2 b s u /\
      i_3d_in i b s u + i_3d_out i b s u = g_d3d g b s u /\
      i_2d_in i b s u * g_d3d g b s u = i_3d_in i b s u * d2 b s u /\
      (t_at ind b u = false -> i_2d_in i b s u = 0 /\ i_3d_in i b s u = 0) /\
      (t_at ind b u = true -> 0 <= i_2d_in i b s u < 10 /\ i_2d_in i b s u = dr_indoor dr b s u).
Proof.
  intros Hc H. destruct (update_content _ _ _ _ _ (constructed_accepted sc Hc) H)
    as (ut & bs & ind & p & _ & _ & U3 & _ & _ & _ & B1 & B2 & _ & _ & D & (g & G1 & G2 & _) & _ & (i & I1 & I2)).
  exists (fun b s u => dist_2d (t_at ut b u) (t_at bs b s)), g, i, ind.
  split; [exact D|]. split; [exact G1|]. split; [exact I1|]. split; [exact U3|].
  intros b s u Hd Hp. unfold sample_indoor in I2. rewrite B1, B2, !Nat.eqb_refl in I2. cbn [andb] in I2.
  injection I2 as <-. cbn [i_2d_in i_2d_out i_3d_in i_3d_out]. rewrite G2.
  cbv beta in Hp. split; [ring|]. split; [ring|]. split; [field; lra|].
  destruct (t_at ind b u); split; intros Hi; try discriminate.
  - rewrite Rmult_1_r. split; [exact Hd | reflexivity].
  - rewrite Rmult_0_r. split; [reflexivity | unfold Rdiv; ring].
Qed.

(* ---- C14, C15 ---- *)
Lemma triangle_slant e h : 0 < e <= 90 -> 0 < h -> spherical_triangle e h (slant_range e h).
Proof. intros He Hh. exact (slant_root e h He Hh). Qed.

Lemma triangle_unique e h d : 0 < e <= 90 -> 0 < h -> spherical_triangle e h d -> d = slant_range e h.
Proof. intros He Hh [P F]. exact (slant_unique e h d He Hh P F). Qed.

Lemma reported_distance sc st a dr st' bs : constructed sc -> set_topology sc st a dr = (st', Ok true) ->
  s_bs_loc st' = Some bs -> 0 < vz (t_at bs 0%nat 0%nat) ->
  exists g, s_geo st' = Some g /\ forall b u, vz (t_at bs b 0%nat) = vz (t_at bs 0%nat 0%nat) ->
    spherical_triangle (sc_elev sc) (vz (t_at bs b 0%nat)) (g_d3d g b 0%nat u) /\
    forall d, spherical_triangle (sc_elev sc) (vz (t_at bs b 0%nat)) d -> d = g_d3d g b 0%nat u.
Proof.
  intros Hc H Hb Hpos. assert (Ha := constructed_accepted sc Hc).
  destruct (update_content _ _ _ _ _ Ha H)
    as (ut & bs' & ind & p & _ & U2 & _ & _ & _ & _ & _ & _ & _ & _ & _ & (g & G1 & G2 & _) & _).
  assert (bs' = bs) by congruence. subst bs'. exists g. split; [exact G1|]. intros b u Hlt.
  assert (He : 0 < sc_elev sc <= 90) by (destruct (ac_elev sc Ha); lra).
  rewrite G2, Hlt. split; [apply triangle_slant; assumption|].
  intros d T. exact (triangle_unique _ _ d He Hpos T).
Qed.

Lemma triangle_bounds e h d : 0 < e <= 90 -> 0 < h -> spherical_triangle e h d ->
  h <= d /\ (e = 90 -> d = h).
Proof.
  intros He Hh T. rewrite (triangle_unique e h d He Hh T). split; [apply slant_ge_h; assumption|].
  intros ->. apply slant_zenith, Hh.
Qed.

Lemma triangle_elev e1 e2 h d1 d2 : 0 < e1 -> e1 < e2 <= 90 -> 0 < h ->
  spherical_triangle e1 h d1 -> spherical_triangle e2 h d2 -> d2 < d1.
Proof.
  intros H1 H2 Hh T1 T2. rewrite (triangle_unique e1 h d1 ltac:(lra) Hh T1), (triangle_unique e2 h d2 ltac:(lra) Hh T2).
  apply slant_decr_elev; assumption.
Qed.

Lemma triangle_height e h1 h2 d1 d2 : 0 < e <= 90 -> 0 < h1 -> h1 < h2 ->
  spherical_triangle e h1 d1 -> spherical_triangle e h2 d2 -> d1 < d2.
Proof.
  intros He H1 H2 T1 T2. rewrite (triangle_unique e h1 d1 He H1 T1), (triangle_unique e h2 d2 He ltac:(lra) T2).
  apply slant_incr_h; assumption.
Qed.

Definition two_examples : topo_args :=
  {| a_ut_loc := Some (T 2 1 (fun _ _ => V3 100 0 1.5));
     a_bs_loc := Some (T 2 1 (fun b _ => V3 0 0 (if Nat.eqb b 0 then 600000 else 1200000)));
     a_ut_ori := Some (T 2 1 (fun _ _ => V3 0 0 0)); a_bs_ori := Some (T 2 1 (fun _ _ => V3 0 0 0));
     a_ut_vel := Some (T 2 1 (fun _ _ => V3 0 0 0)); a_in := Some (T 2 1 (fun _ _ => false));
     a_los := None; a_weather := no_weather; a_doppler := None |}.

Lemma height_of_first_example : exists sc a dr st' bs g,
  constructed sc /\ set_topology sc (init_state sc) a dr = (st', Ok true) /\
  s_bs_loc st' = Some bs /\ s_geo st' = Some g /\
  (forall b, (b < t_batch bs)%nat -> 0 < vz (t_at bs b 0%nat)) /\
  exists b, (b < t_batch bs)%nat /\
    ~ spherical_triangle (sc_elev sc) (vz (t_at bs b 0%nat)) (g_d3d g b 0%nat 0%nat).
Proof.
  destruct example_constructed as (sc & Hc & He & _). assert (Ha := constructed_accepted sc Hc).
  assert (E : exists st', set_topology sc (init_state sc) two_examples no_draws = (st', Ok true)).
  { unfold set_topology, need_for_update.
    cbn [two_examples a_ut_loc a_bs_loc a_in a_ut_ori a_bs_ori a_ut_vel a_los given orb negb
         store_args s_ut_loc s_bs_loc s_in or_else].
    apply update_succeeds; [exact Ha | cbn; auto ..]. }
  destruct E as [st' E].
  destruct (update_content _ _ _ _ _ Ha E)
    as (ut & bs & ind & p & _ & U2 & _ & _ & _ & _ & _ & _ & _ & _ & _ & (g & G1 & G2 & _) & _).
  assert (Ebs : s_bs_loc st' = a_bs_loc two_examples).
  { destruct (step_cases _ _ _ _ _ _ Ha E) as [(_ & _ & [m C]) | (_ & _ & I & W)]; [discriminate|].
    destruct I as (_ & I2 & _). exact I2. }
  rewrite U2 in Ebs. cbn in Ebs. injection Ebs as Ebs.
  exists sc, two_examples, no_draws, st', bs, g.
  split; [exact Hc|]. split; [exact E|]. split; [exact U2|]. split; [exact G1|].
  subst bs. cbn [t_batch t_at]. split; [intros b _; destruct (Nat.eqb b 0); cbn; lra|].
  exists 1%nat. split; [lia|]. cbn [Nat.eqb vz]. rewrite G2. cbn [t_at Nat.eqb vz].
  intros T. rewrite He in T. apply triangle_unique in T; [| lra | lra].
  assert (L := slant_incr_h 45 600000 1200000 ltac:(lra) ltac:(lra) ltac:(lra)). lra.
Qed.

(* ---- C16 ---- *)
Lemma reported_angles sc st a dr st' : constructed sc -> set_topology sc st a dr = (st', Ok true) ->
  exists ut bs g, s_ut_loc st' = Some ut /\ s_bs_loc st' = Some bs /\ s_geo st' = Some g /\
    forall b s u,
      let x := vsub (t_at ut b u) (t_at bs b s) in
      0 <= g_aod g b s u < 360 /\ 0 <= g_aoa g b s u < 360 /\
      0 <= g_zod g b s u <= 180 /\ 0 <= g_zoa g b s u < 360 /\
      vscale (vnorm x) (unit_dir (g_zod g b s u) (g_aod g b s u)) = x /\
      vscale (vnorm x) (unit_dir (g_zoa g b s u) (g_aoa g b s u)) = V3 (vx x) (vy x) (- vz x) /\
      vscale (vnorm x) (unit_dir (360 - g_zoa g b s u) (g_aoa g b s u)) = vscale (-1) x.
Proof.
  intros Hc H. destruct (update_content _ _ _ _ _ (constructed_accepted sc Hc) H)
    as (ut & bs & ind & p & U1 & U2 & _ & _ & _ & _ & _ & _ & _ & _ & _ & (g & G1 & _ & G2 & G3 & G4 & G5 & _) & _).
  exists ut, bs, g. split; [exact U1|]. split; [exact U2|]. split; [exact G1|].
  intros b s u x. rewrite G2, G3, G4, G5. unfold x; clear x.
  set (p1 := t_at ut b u). set (p2 := t_at bs b s).
  destruct (los_angles_range p1 p2) as (R1 & R2 & R3 & R4).
  split; [exact R1|]. split; [exact R2|]. split; [apply los_zod_180|]. split; [exact R4|].
  split; [exact (departure_direction p1 p2)|]. split; [exact (arrival_direction p1 p2)|].
  assert (A := arrival_direction p1 p2). unfold direction, deg_2_rad in A.
  unfold unit_dir. unfold vscale, vsub in *. cbn [vx vy vz] in *. injection A as A1 A2 A3.
  assert (P := PI_RGT_0).
  replace ((360 - los_zoa p1 p2) * (PI / 180)) with (- (los_zoa p1 p2 * (PI / 180)) + 2 * INR 1 * PI)
    by (cbn; field).
  rewrite sin_period, cos_period, sin_neg, cos_neg. f_equal; lra.
Qed.

Lemma arrival_wrong : exists sc a dr st' ut bs g,
  constructed sc /\ set_topology sc (init_state sc) a dr = (st', Ok true) /\
  s_ut_loc st' = Some ut /\ s_bs_loc st' = Some bs /\ s_geo st' = Some g /\
  ~ points_along (unit_dir (g_zoa g 0%nat 0%nat 0%nat) (g_aoa g 0%nat 0%nat 0%nat))
      (vsub (t_at bs 0%nat 0%nat) (t_at ut 0%nat 0%nat)).
Proof.
  destruct example_constructed as (sc & Hc & _). assert (Ha := constructed_accepted sc Hc).
  destruct (first_call sc (init_state sc) no_weather no_draws Ha) as [st1 E1].
  destruct (first_state _ _ _ _ Ha E1) as (F1 & F2 & _).
  destruct (reported_angles sc _ _ _ _ Hc E1) as (ut & bs & g & U1 & U2 & G1 & G).
  exists sc, (w_args no_weather), no_draws, st1, ut, bs, g.
  split; [exact Hc|]. split; [exact E1|]. split; [exact U1|]. split; [exact U2|]. split; [exact G1|].
  rewrite F1 in U1. rewrite F2 in U2. cbn in U1, U2. injection U1 as <-. injection U2 as <-.
  specialize (G 0%nat 0%nat 0%nat). cbv zeta in G. destruct G as (_ & _ & _ & _ & _ & G & _).
  unfold t1 in *. cbn [t_at] in *. unfold unit_dir, points_along, vscale, vsub in *. cbn [vx vy vz] in *.
  set (c := cos (g_zoa g 0%nat 0%nat 0%nat * (PI / 180))) in *.
  set (sx := sin (g_zoa g 0%nat 0%nat 0%nat * (PI / 180)) * cos (g_aoa g 0%nat 0%nat 0%nat * (PI / 180))) in *.
  set (n := vnorm _) in G. injection G as Gx _ _.
  assert (N : 0 <= n) by apply sqrt_pos.
  intros (k & Hk & E). injection E as Ex _ _.
  assert (X1 : 0 < n * sx) by (rewrite Gx; lra). assert (X2 : k * sx < 0) by (rewrite <- Ex; lra).
  assert (0 < sx) by nra. nra.
Qed.

(* ---- a history with a rejected, an updating and a non-updating call ---- *)
Lemma history_example : exists sc o1 o2 o3 m,
  constructed sc /\ trace sc (init_state sc) [o1; o2; o3] = [(o1, Err (AssertionError m)); (o2, Ok true); (o3, Ok false)] /\
  something_missing [] (fst o1) /\ a_los (fst o3) = None.
Proof.
  destruct example_constructed as (sc & Hc & _). assert (Ha := constructed_accepted sc Hc).
  destruct (second_call sc dry no_weather Ha) as (st1 & st2 & E1 & E2 & _).
  exists sc, (only_weather dry, no_draws), (w_args dry, no_draws), (only_weather no_weather, no_draws).
  eexists. split; [exact Hc|]. split; [|split; [|reflexivity]].
  - cbn [trace fst snd]. unfold step. cbn [fst snd].
    change (set_topology sc (init_state sc) (only_weather dry) no_draws)
      with (init_state sc, Err (A := bool) (AssertionError "`ut_loc` is None and was not previously set")).
    cbn [fst snd]. rewrite E1. cbn [fst snd]. rewrite E2. reflexivity.
  - left. split; [reflexivity | intros o r []].
Qed.

(* ---- a batch of two, each with an indoor and an outdoor UT ---- *)
Definition mixed_ut : tens vec3 := T 2 2 (fun b u => V3 (100 + 50 * INR b) (200 * INR u) 1.5).
Definition mixed_in : tens bool := T 2 2 (fun _ u => Nat.eqb u 0).
Definition mixed_args : topo_args :=
  {| a_ut_loc := Some mixed_ut; a_bs_loc := Some (T 2 1 (fun b _ => V3 (1000 * INR b) 0 600000));
     a_ut_ori := Some (T 2 2 (fun _ _ => V3 0 0 0)); a_bs_ori := Some (T 2 1 (fun _ _ => V3 0 0 0));
     a_ut_vel := Some (T 2 2 (fun _ _ => V3 0 0 0)); a_in := Some mixed_in; a_los := Some true;
     a_weather := no_weather; a_doppler := None |}.
Definition mixed_draws : topo_draws :=
  {| dr_indoor := fun _ _ _ => 4; dr_los := fun _ _ _ => 0.5; dr_z_los := fun _ _ _ => 0; dr_z_nlos := fun _ _ _ => 0 |}.

Lemma mixed_example : exists sc st' los d2 i bs,
  constructed sc /\ set_topology sc (init_state sc) mixed_args mixed_draws = (st', Ok true) /\
  s_los st' = Some los /\ s_d2d st' = Some d2 /\ s_ind st' = Some i /\ s_bs_loc st' = Some bs /\
  (forall b u, (b < 2)%nat -> (u < 2)%nat -> 0 < d2 b 0%nat u /\ los b 0%nat u = negb (Nat.eqb u 0) /\
     i_2d_in i b 0%nat u = (if Nat.eqb u 0 then 4 else 0)) /\
  0 < vz (t_at bs 0%nat 0%nat) /\ vz (t_at bs 1%nat 0%nat) = vz (t_at bs 0%nat 0%nat) /\ t_at bs 1%nat 0%nat <> t_at bs 0%nat 0%nat.
Proof.
  destruct example_constructed as (sc & Hc & _). assert (Ha := constructed_accepted sc Hc).
  assert (E : exists st', set_topology sc (init_state sc) mixed_args mixed_draws = (st', Ok true)).
  { unfold set_topology. cbn [mixed_args a_ut_loc a_bs_loc a_in a_ut_ori a_bs_ori a_ut_vel given orb negb].
    unfold need_for_update. cbn [mixed_args a_ut_loc given orb].
    cbn [store_args s_ut_loc s_bs_loc s_in mixed_args a_ut_loc a_bs_loc a_in or_else].
    apply update_succeeds; [exact Ha | reflexivity | reflexivity | cbn; lia | reflexivity | reflexivity]. }
  destruct E as (st' & E).
  destruct (los_semantics sc _ _ _ _ Hc E) as (los & ind & p & L & I & _ & LS).
  destruct (indoor_split sc _ _ _ _ Hc E) as (d2 & g & i & ind' & D & G & In1 & I' & SP).
  destruct (update_content _ _ _ _ _ Ha E) as (ut & bs & ind2 & p2 & U & B & I2 & _ & _ & _ & _ & _ & _ & _ & D' & _).
  assert (ind' = ind) by congruence. assert (ind2 = ind) by congruence. subst ind' ind2.
  destruct (step_cases _ _ _ _ _ _ Ha E) as [(_ & _ & [m Hm]) | (_ & _ & S & _)]; [discriminate|].
  destruct S as (S1 & S2 & _ & _ & _ & S6 & S7 & _).
  cbn [store_args mixed_args a_ut_loc a_bs_loc a_in a_los or_else s_ut_loc s_bs_loc s_in s_req_los] in S1, S2, S6, S7.
  assert (ut = mixed_ut) by congruence. assert (ind = mixed_in) by congruence. subst ut ind.
  assert (d2 = fun b s u => dist_2d (t_at mixed_ut b u) (t_at bs b s)) by congruence. subst d2.
  assert (bs = T 2 1 (fun b _ => V3 (1000 * INR b) 0 600000)) by congruence. subst bs.
  exists sc, st', los. eexists. exists i. eexists.
  split; [exact Hc|]. split; [exact E|]. split; [exact L|]. split; [exact D|]. split; [exact In1|]. split; [exact B|].
  split; [|cbn; split; [lra|split; [lra|intros K; injection K; lra]]].
  intros b u Hb Hu.
  assert (P : 0 < dist_2d (t_at mixed_ut b u) (t_at (T 2 1 (fun b _ => V3 (1000 * INR b) 0 600000)) b 0%nat)).
  { unfold dist_2d, mixed_ut. cbn [t_at vx vy]. apply sqrt_lt_R0.
    assert (X : 100 + 50 * INR b - 1000 * INR b <> 0).
    { destruct b as [|[|b]]; [cbn; lra | cbn; lra | lia]. }
    assert (Y := Rlt_0_sqr _ X). unfold Rsqr in Y. unfold sq.
    match goal with |- 0 < ?a + ?c => assert (0 <= c) by (apply Rle_0_sqr); nra end. }
  split; [exact P|].
  assert (Hd : 0 <= dr_indoor mixed_draws b 0%nat u < 10) by (cbn; lra).
  destruct (SP b 0%nat u Hd P) as (_ & _ & _ & O1 & O2).
  specialize (LS b 0%nat u). rewrite S7 in LS. cbn [t_at mixed_in] in LS, O1, O2.
  destruct (Nat.eqb u 0); cbn [negb].
  - split; [|apply O2; reflexivity]. destruct (los b 0%nat u); [|reflexivity]. destruct (proj1 LS eq_refl). discriminate.
  - split; [|apply O1; reflexivity]. apply LS. auto.
Qed.
