(* A call that meets the hypotheses of the mean power theorems. *)
From Coq Require Import Reals String List Bool Arith Lia Lra ZArith QArith Qreals Permutation Sorting.Sorted.
From Verif Require Import M_Base L_Base M_Params S_Config L_Params L_Config M_Geometry M_Pathloss M_Scenario
  M_Lsp S_Linear L_Linear S_Lsp S_Topology L_Pathloss L_Trig L_Geometry L_Scenario L_Fresh L_Topology L_Corr L_Lsp
  S_Pathloss L_Loss M_Rays S_Rays L_Rays L_RaysEx M_Antenna L_Antenna M_Cplx M_Coeff S_Coeff L_Rotation L_Coeff M_Channel S_Channel L_Chol L_Channel L_Link L_Paths
  S_Ray L_Ray S_Mean L_Mean S_MeanLink L_MeanLink M_Json D_Urban.
Import ListNotations.
Open Scope string_scope.
Open Scope list_scope.
Open Scope R_scope.

Lemma omni_antenna (j1 : R -> R) (fc : R) : exists p a, vertical_omni p /\ make_array j1 p = Ok a /\ pa_num_ant a = 1%nat.
Proof.
  exists {| ar_rows_pp := 1; ar_cols_pp := 1; ar_pol := "single"; ar_type := "V"; ar_pattern := "omni";
     ar_fc := fc; ar_rows := 1; ar_cols := 1; ar_panel_v := None; ar_panel_h := None; ar_elem_v := None; ar_elem_h := None |}.
  unfold make_array.
  cbn [ar_rows_pp ar_cols_pp ar_pol ar_type ar_pattern ar_fc ar_rows ar_cols ar_panel_v ar_panel_h ar_elem_v ar_elem_h default].
  change (String.eqb "single" "single") with true. change (String.eqb "V" "V") with true. cbn [orb negb].
  assert (A : Rltb ((INR 1 - 1) * 0.5) ((INR 1 - 1) * 0.5 + 0.5) = true) by (apply Rltb_true; cbn; lra).
  rewrite !A. cbn [negb]. unfold make_element. change (String.eqb "omni" "omni") with true. cbn [bind fst snd].
  eexists. split; [repeat split|]. split; [reflexivity|]. reflexivity.
Qed.

Lemma zoa_315 : los_zoa (V3 600000 0 0) (V3 0 0 600000) = 315.
Proof.
  unfold los_zoa. cbn [vz].
  replace (dist_2d (V3 600000 0 0) (V3 0 0 600000)) with 600000.
  2:{ unfold dist_2d, sq. cbn [vx vy]. replace ((600000 - 0) * (600000 - 0) + (0 - 0) * (0 - 0)) with (600000 * 600000) by ring.
      rewrite sqrt_square; lra. }
  unfold atan2. destruct (Rlt_dec 0 (0 - 600000)); [lra|]. destruct (Rlt_dec (0 - 600000) 0); [| lra].
  destruct (Rle_dec 0 600000); [| lra]. replace (600000 / (0 - 600000)) with (- (1)) by field.
  rewrite (atan_opp 1), atan_1. unfold rad_2_deg, wrap_angle_0_360. replace ((- (PI / 4) + PI - PI) * (180 / PI)) with (-45).
  - apply (fmod_unique _ _ _ (-1)%Z); lra.
  - field. apply PI_neq0.
Qed.

Lemma cone_slanted r x k : same_cone (degrees r) x -> 180 * IZR k < x < 180 * IZR k + 180 -> slanted r.
Proof.
  intros C B S. destruct (sin_eq_0_0 _ S) as [m M].
  assert (D : degrees r = 180 * IZR m) by (unfold degrees; rewrite M; field; apply PI_neq0). rewrite D in C.
  assert (X : exists j, x = 180 * IZR j).
  { destruct C as [[i E]|[i E]].
    - exists (m - 2 * i)%Z. rewrite minus_IZR, mult_IZR. lra.
    - exists (2 * i - m)%Z. rewrite minus_IZR, mult_IZR. lra. }
  destruct X as [j ->]. destruct B as [B1 B2].
  assert (k < j)%Z by (apply lt_IZR; lra). assert (j < k + 1)%Z by (apply lt_IZR; rewrite plus_IZR; lra). lia.
Qed.

Lemma dense_values : for_cols (fun e ul sb los c => match e with
  | DenseUrban =>
     match plookup_opt (param_key "numClusters" (string_of_Z c)) (tbl e ul sb los), plookup_opt (param_key "cZSA" (string_of_Z c)) (tbl e ul sb los) with
     | Some v, Some w => match pval_Q v, pval_Q w with
       | Some q, Some q' => Qeq_bool q (if los then 3 else 4)%Q && Qeq_bool q' 7%Q | _, _ => false end
     | _, _ => false end
  | _ => true end) = true.
Proof. vm_compute. reflexivity. Qed.

Lemma dense_documented sc los : accepted sc -> sc_env sc = DenseUrban ->
  documented_value (sc_env sc) (sc_fc sc) (sc_dir sc) (sc_elev sc) los "numClusters" (Fin (if los then 3 else 4)) /\
  documented_value (sc_env sc) (sc_fc sc) (sc_dir sc) (sc_elev sc) los "cZSA" (Fin 7).
Proof.
  intros Ha He. assert (Ha' := Ha). destruct Ha' as [_ Hb Hel Hl Ht Hnl].
  assert (F := for_cols_spec _ dense_values (sc_env sc) (dir_ul (sc_dir sc)) (is_s_band (sc_fc sc)) los (angle_col (sc_elev sc))
    (angle_col_in _ Hel)). cbv beta in F.
  change (string_of_Z (angle_col (sc_elev sc))) with (angle_str (sc_elev sc)) in F.
  assert (G : forall name v, plookup_opt (param_key name (angle_str (sc_elev sc))) (tbl (sc_env sc) (dir_ul (sc_dir sc)) (is_s_band (sc_fc sc)) los) = Some v ->
    plookup (param_key name (angle_str (sc_elev sc))) (if los then sc_plos sc else sc_pnlos sc) = Ok v).
  { intros name v E. unfold plookup. destruct los; [rewrite Ht | rewrite Hnl]; rewrite E; reflexivity. }
  destruct (sc_env sc) eqn:EE; try discriminate. rewrite <- EE in *.
  destruct (plookup_opt (param_key "numClusters" (angle_str (sc_elev sc))) _) as [v|] eqn:E1; [|discriminate].
  destruct (plookup_opt (param_key "cZSA" (angle_str (sc_elev sc))) _) as [w|] eqn:E2; [|discriminate].
  pose proof (documented sc los "numClusters" v Ha (G _ _ E1)) as D1. pose proof (documented sc los "cZSA" w Ha (G _ _ E2)) as D2.
  rewrite pval_Q_ext in D1, D2. destruct (pval_Q v) as [q|]; [|discriminate]. destruct (pval_Q w) as [q'|]; [|discriminate].
  apply andb_true_iff in F. destruct F as [F1 F2]. apply Qeq_bool_eq in F1, F2. apply Qeq_eqR in F1, F2.
  rewrite F1 in D1. rewrite F2 in D2. split.
  - replace (if los then 3 else 4) with (Q2R (if los then 3 else 4)%Q); [exact D1|]. destruct los; unfold Q2R; cbn; lra.
  - replace 7 with (Q2R 7%Q); [exact D2|]. unfold Q2R; cbn; lra.
Qed.

Lemma dense_constructed : exists sc, constructed sc /\ sc_env sc = DenseUrban /\ sc_fc sc = 2e9 /\ sc_dir sc = "downlink".
Proof.
  destruct (scenario_init DenseUrban 2e9 ex_array ex_array "downlink" 45 true true true) as [sc | e] eqn:E.
  - exists sc. split; [repeat eexists; exact E|].
    destruct (init_accepted _ _ _ _ _ _ _ _ _ _ E) as (_ & A & B & C & D & _). auto.
  - exfalso.
    assert (H : is_ok (scenario_init DenseUrban 2e9 ex_array ex_array "downlink" 45 true true true)).
    { apply construct_iff. unfold supported_config, in_S_band; cbn. repeat split; auto; lra. }
    rewrite E in H. destruct H as [? H]; discriminate || exact H.
Qed.

Lemma offsets_bound i : -2.16 < nth i ray_offsets 0 < 2.16.
Proof. do 20 (destruct i as [|i]; [cbn; lra|]). destruct i; cbn; lra. Qed.

Lemma mean_link_setup srt srtd j1 : valid_argsort srt -> valid_argsort_desc srtd ->
  exists sc a dr z ua ba D E n gain leak, constructed sc /\ settled sc false [SetTopology a dr z] a dr z /\ uniform_phases n E /\
    0 < gain /\ 0 < leak /\
    (exists pu pb, vertical_omni pu /\ vertical_omni pb /\ make_array j1 pu = Ok ua /\ make_array j1 pb = Ok ba) /\
    (exists d, only_phases_vary (sc_dir sc) 0 0 0 d D /\
      let c := chan_run sc false (chan_init sc) [SetTopology a dr z] in
      exists lsps mask rr y los, c_lsp c = Some lsps /\ c_mask c = Some mask /\ gen_rays srt (c_st c) mask lsps (cd_rays d) = Ok rr /\
        rr 0%nat 0%nat 0%nat = Some y /\ s_ut_ori (c_st c) = Some (t1 (V3 0 0 0)) /\ s_bs_ori (c_st c) = Some (t1 (V3 0 0 0)) /\
        s_in (c_st c) = Some (T 1 1 (fun _ _ => false)) /\ s_los (c_st c) = Some los /\ los 0%nat 0%nat 0%nat = false /\
        n = 4%nat /\ pa_num_ant ua = 1%nat /\ pa_num_ant ba = 1%nat /\ sc_dir sc = "downlink" /\ sc_env sc = DenseUrban /\
        forall c r, (c < 4)%nat -> (r < 20)%nat -> slanted (r_zoa y c r) /\ slanted (r_zod y c r)) /\
    let c := chan_run sc false (chan_init sc) [SetTopology a dr z] in
    forall t, E (fun ph => match chan_call srt srtd sc ua ba false c 1e6 (D ph) with
                 | Ok o => creal (received_power (sc_dir sc) o 0 0 0 0 0 (n + 4) t) | Err _ => c0 end) =
    creal (gain * ((cos (27 * PI / 180))² + leak * (sin (27 * PI / 180))²)).
Proof.
  intros V VD. destruct dense_constructed as (sc & Hc & Henv & Hfc & Hdir). assert (Ha := constructed_accepted sc Hc).
  set (a := one_ut (V3 600000 0 0) false (Some false)). set (z0 := fun _ _ _ _ : nat => 0).
  destruct (one_ut_call sc (V3 600000 0 0) false (Some false) no_draws Hc) as (st' & ST & U & B & I). fold a in ST.
  assert (OKz : forall z, snd (chan_set_topology sc false (chan_init sc) a no_draws z) = Ok tt).
  { intros z. destruct (C68_l sc false (chan_init sc) a no_draws z st' Hc ST) as (ut & ind & los & A1 & _ & _ & Iff).
    apply Iff. assert (ut = t1 (V3 600000 0 0)) by congruence. subst ut. cbn [t1 t_num t_batch]. intros; lia. }
  assert (Ch : changes_topology a) by (left; discriminate).
  assert (S : settled sc false [SetTopology a no_draws z0] a no_draws z0).
  { exists [], []. split; [reflexivity|]. split; [exact Ch|]. split; [apply OKz|intros ? ? ? []]. }
  destruct (omni_antenna j1 2e9) as (p & ar & VO & MA & NA).
  set (d := {| cd_lsp := z0; cd_rays := plain_draws (fun _ => / 2); cd_dir := fun _ => 0; cd_phase := fun _ _ _ _ _ _ => 0 |}).
  set (D := fun ph : ray_phases => {| cd_lsp := z0; cd_rays := plain_draws (fun _ => / 2); cd_dir := fun _ => 0; cd_phase := fun _ _ _ => ph |}).
  assert (VP : only_phases_vary (sc_dir sc) 0 0 0 d D) by (constructor; reflexivity).
  assert (MAIN := fun t => C84_omni_l srt srtd j1 p p ar ar sc false [SetTopology a no_draws z0] a no_draws z0 1e6 d D 0 0 0 0 0 t V VD Hc S MA MA
    ltac:(lia) ltac:(lia) VO VO VP).
  destruct (settled_state _ _ _ _ _ _ S) as (c' & st2 & _ & _ & _ & _ & _ & _ & mask & ST2 & _ & _ & _ & _ & _ & _ & EM & SAME & _ & _ & MK & _).
  cbv zeta in MAIN, SAME, MK. set (c := chan_run sc false (chan_init sc) [SetTopology a no_draws z0]) in *.
  assert (ES : c_st c = st').
  { assert (R := OKz z0). destruct (chan_set_topology sc false (chan_init sc) a no_draws z0) as [c1 r1] eqn:E1. cbn [snd] in R. subst r1.
    destruct (change_ok _ _ _ _ _ _ _ E1 Ch) as (ST1 & _).
    assert (c_st c1 = st') by (change (channel_args a) with a in ST1; change (c_st (chan_init sc)) with (init_state sc) in ST1; congruence).
    unfold c. cbn [chan_run fold_left chan_step]. rewrite E1. assumption. }
  rewrite ES in *.
  destruct (one_ut_los sc _ false _ st' Hc ST) as (los & LO1 & LO2).
  assert (EM' : compute_clusters_mask st' = Ok mask).
  { destruct SAME as (S1 & S2 & S3 & S4 & S5 & S6 & S7 & S8). rewrite <- EM. unfold compute_clusters_mask. rewrite S3, S5, S6. reflexivity. }
  assert (ALL : exists lsps rr y, c_lsp c = Some lsps /\ gen_rays srt st' mask lsps (plain_draws (fun _ => / 2)) = Ok rr /\ rr 0%nat 0%nat 0%nat = Some y /\
      0 < l_sf (lsps 0%nat 0%nat 0%nat) /\ (forall c r, 0 < r_xpr y c r) /\ length (r_powers y) = 4%nat /\ (forall c, (c < 4)%nat -> 0 < nth c (r_powers y) 0) /\
      forall c r, (c < 4)%nat -> (r < 20)%nat -> slanted (r_zoa y c r) /\ slanted (r_zod y c r)).
  { destruct (MAIN 0%nat) as (lsps & mask' & rr & uo & bo & bs & g & los' & ind & pl & n1 & n2 & A1 & A2 & A3 & A4 & _ ).
    assert (mask' = mask) by congruence. subst mask'. cbn [cd_rays d] in A4.
    exists lsps, rr.
    destruct (C23_l _ _ _ _ _ _ srt lsps _ rr Hc ST EM' A4) as (los3 & ind3 & m1 & m2 & F1 & F2 & F3 & F4).
    assert (los3 = los) by congruence. subst los3. assert (ind3 = T 1 1 (fun _ _ => false)) by congruence. subst ind3.
    assert (NN : m1 = 3%nat /\ m2 = 4%nat).
    { assert (Q1 := documented_value_fun _ _ _ _ _ _ _ _ (F3 true) (proj1 (dense_documented sc true Ha Henv))).
      assert (Q2 := documented_value_fun _ _ _ _ _ _ _ _ (F3 false) (proj1 (dense_documented sc false Ha Henv))).
      injection Q1 as Q1. injection Q2 as Q2. split; apply INR_eq; [rewrite Q1|rewrite Q2]; cbn; lra. }
    destruct NN as [-> ->]. cbn [Nat.max] in *.
    assert (NL : los 0%nat 0%nat 0%nat = true -> Rpower 10 (- 6.3) <= l_k (lsps 0%nat 0%nat 0%nat)) by (rewrite LO2; discriminate).
    destruct (F4 0%nat 0%nat 0%nat eq_refl NL) as (y & Y & LP & SP & PP & _ & rtau & zeta & total & _ & _ & TP & PV).
    rewrite LO2 in PP, PV. cbv zeta in PP, PV.
    exists y. split; [exact A2|]. split; [exact A4|]. split; [exact Y|].
    destruct (C22_l _ _ _ _ _ _ srt lsps _ rr Hc ST EM' A4) as (los4 & k1 & k2 & G1 & G2 & G3).
    assert (los4 = los) by congruence. subst los4.
    assert (KK : k1 = 3%nat /\ k2 = 4%nat).
    { assert (Q1 := documented_value_fun _ _ _ _ _ _ _ _ (G2 true) (proj1 (dense_documented sc true Ha Henv))).
      assert (Q2 := documented_value_fun _ _ _ _ _ _ _ _ (G2 false) (proj1 (dense_documented sc false Ha Henv))).
      injection Q1 as Q1. injection Q2 as Q2. split; apply INR_eq; [rewrite Q1|rewrite Q2]; cbn; lra. }
    destruct KK as [-> ->]. destruct (G3 0%nat 0%nat 0%nat y Y NL) as (LD & _ & Z0 & _ & rt & t0 & _ & _ & PM). rewrite LO2 in PM. cbn [Nat.max] in *.
    assert (DEL : forall k, (k < 4)%nat -> nth k (r_delays y) 0 = 0).
    { assert (ALLV : forall t, In t (r_delays y) -> 1 * t + t0 = - rt * l_ds (lsps 0%nat 0%nat 0%nat) * ln (/ 2)).
      { intros t Ht. assert (Q : In (1 * t + t0) (map (fun t => 1 * t + t0) (r_delays y))) by (apply (in_map (fun t => 1 * t + t0)); exact Ht).
        apply (Permutation_in _ PM) in Q. cbn [seq map raw_delay Nat.ltb Nat.leb rd_x plain_draws] in Q. unfold raw_delay in Q. cbn in Q. intuition. }
      assert (E0 : 1 * 0 + t0 = - rt * l_ds (lsps 0%nat 0%nat 0%nat) * ln (/ 2)) by (apply ALLV; rewrite <- Z0 at 1; apply nth_In; lia).
      intros k Hk. assert (Q := ALLV (nth k (r_delays y) 0) ltac:(apply nth_In; lia)). lra. }
    assert (EQP : forall k, (k < 4)%nat -> nth k (r_powers y) 0 = / total).
    { intros k Hk. assert (Q := PV k Hk). rewrite (DEL k Hk) in Q. cbn [rd_shadow plain_draws] in Q.
      replace (- (1 * 0) * (rtau - 1) / (rtau * l_ds (lsps 0%nat 0%nat 0%nat))) with 0 in Q by (unfold Rdiv; ring).
      replace (- (zeta * 0) / 10) with 0 in Q by field. rewrite exp_0, Rpower_O in Q by lra.
      apply Rmult_eq_reg_r with total; [|lra]. rewrite Q. field. lra. }
    split.
    { assert (R := OKz z0). destruct (chan_set_topology sc false (chan_init sc) a no_draws z0) as [c1 r1] eqn:E1. cbn [snd] in R. subst r1.
      destruct (change_ok _ _ _ _ _ _ _ E1 Ch) as (_ & ut1 & bs1 & Cm1 & Sm1 & Lx1 & Ls1 & mask1 & _ & _ & _ & _ & _ & _ & _ & _ & _ & _ & B9).
      destruct (B9 eq_refl) as (l & L1 & L2).
      assert (CC : c = c1) by (unfold c; cbn [chan_run fold_left chan_step]; rewrite E1; reflexivity).
      rewrite <- CC, ES in L1. rewrite <- CC in L2. assert (l = lsps) by congruence. subst l.
      destruct (C18_l _ _ _ _ _ (t_num ut1) Lx1 Ls1 z0 Hc ST) as (lo & f & _ & Ef & Pf). assert (f = lsps) by congruence. subst f.
      specialize (Pf 0%nat 0%nat 0%nat). tauto. }
    split.
    { destruct (xpr_l _ _ _ _ _ _ srt lsps _ rr Hc ST EM' A4) as (los5 & _ & H2). destruct (H2 0%nat 0%nat 0%nat y Y) as (mu & sg & _ & _ & XP). intros; apply XP. }
    split; [exact LP|]. split; [intros k Hk; apply PP, Hk|].
    intros k r Hk Hr.
    destruct (C25_l _ _ _ _ _ _ _ _ _ _ Hc ST EM' V A4) as (los6 & g6 & ut6 & bs6 & B1 & B2 & B3 & B4 & Q).
    assert (los6 = los) by congruence. subst los6. assert (ut6 = t1 (V3 600000 0 0)) by congruence. subst ut6.
    assert (bs6 = t1 (V3 0 0 600000)) by congruence. subst bs6.
    specialize (Q 0%nat 0%nat 0%nat y Y). rewrite LO2 in Q. specialize (Q (fun E => match Bool.diff_false_true E with end)).
    destruct Q as (czsa & czsd & mz & cth & zr & CZ & DZ & _ & Zn & _ & RP & Q). specialize (Q k).
    destruct Q as (pa & pd & _ & _ & Q). destruct (Q r Hr) as (_ & _ & Qa & Qd & _). clear Q.
    cbn [t1 t_at vz] in Qd. destruct (Rle_dec 160000 600000) as [_ |]; [| lra].
    assert (MZ : mz = NegInf) by (exact (documented_value_fun _ _ _ _ _ _ _ _ DZ (zsd_neginf sc false Ha Hdir))).
    rewrite (Zn MZ) in Qd.
    assert (C7 : czsa = 7) by (assert (X := documented_value_fun _ _ _ _ _ _ _ _ CZ (proj2 (dense_documented sc false Ha Henv))); congruence).
    subst czsa.
    assert (ZR : zr k = 1).
    { rewrite LP in RP. destruct RP as (pm & _ & (k' & Hk' & Pk') & RZ). rewrite (RZ k Hk). unfold angle_power in Pk' |- *.
      rewrite (EQP k Hk). rewrite (EQP k' Hk') in Pk'. subst pm. replace (/ total / / total) with 1 by (field; lra).
      unfold Rmax, Rmin. destruct (Rle_dec 1 (1 / 10 ^ 6)); [lra|]. destruct (Rle_dec 1 1); lra. }
    assert (GEO : g_zod g6 0%nat 0%nat 0%nat = 135 /\ g_zoa g6 0%nat 0%nat 0%nat = 315).
    { destruct (update_content _ _ _ _ _ Ha ST) as (ut & bs0 & ind0 & pp & X1 & X2 & _ & _ & _ & _ & _ & _ & _ & _ & _ &
        (g0 & G1' & _ & _ & _ & G2' & G3' & _) & _).
      assert (g0 = g6) by congruence. subst g0. assert (ut = t1 (V3 600000 0 0)) by congruence. subst ut.
      assert (bs0 = t1 (V3 0 0 600000)) by congruence. subst bs0. split; [rewrite G2'; exact zod_135|]. rewrite G3'. exact zoa_315. }
    destruct GEO as [GD GA]. rewrite GD in Qd. rewrite GA in Qa. rewrite ZR in *.
    cbn [rd_zoa rd_zod plain_draws no_angle_draws ad_sign ad_comp] in Qa, Qd. unfold zenith_deviation in Qa, Qd. rewrite ln_1 in Qa, Qd.
    split.
    - apply (cone_slanted _ _ 1 Qa). pose proof (offsets_bound (pa r)). unfold Rdiv. rewrite !Rmult_0_r, !Rmult_0_l, ?Rmult_0_r. lra.
    - assert (PD : plane_distance {| vx := 600000; vy := 0; vz := 0 |} {| vx := 0; vy := 0; vz := 600000 |} = 600000).
      { unfold plane_distance. cbn [vx vy]. replace ((600000 - 0) ^ 2 + (0 - 0) ^ 2) with (600000 * 600000) by ring. rewrite sqrt_square; lra. }
      rewrite PD in Qd. apply (cone_slanted _ _ 0 Qd).
      assert (X1 : atan ((35 - 3.5) / 600000) < atan ((35 - 1.5) / 600000)) by (apply atan_increasing; lra).
      assert (X2 : atan ((35 - 1.5) / 600000) < atan 1) by (apply atan_increasing; lra). rewrite atan_1 in X2.
      assert (X3 : atan 0 < atan ((35 - 3.5) / 600000)) by (apply atan_increasing; lra). rewrite atan_0 in X3.
      pose proof PI_4. unfold Rdiv in *. rewrite !Rmult_0_r, !Rmult_0_l, ?Rmult_0_r, ?Ropp_0, ?Rmult_0_l. lra. }
  destruct ALL as (lsps & rr & y & L1 & G1 & Y & SF & XP & LP & PP & SL).
  (* the gain and the cross-polar share *)
  destruct (MAIN 0%nat) as (lsps' & mask' & rr' & uo & bo & bs & g & los' & ind & pl & n1 & n2 & A1 & A2 & A3 & A4 & A5 & A6 & A7 & A8 & A9 & A10 & A11 & A12 & _).
  exists sc, a, no_draws, z0, ar, ar, D, (phase_grid 4), 4%nat,
    ((if sc_pathloss sc then Rpower 10 (- pl 0%nat 0%nat 0%nat / 10) else 1) * (if sc_shadow sc then l_sf (lsps 0%nat 0%nat 0%nat) else 1)),
    (Rsum (map (fun cr => nth (fst cr) (r_powers y) 0 / 20 * (1 / r_xpr y (fst cr) (snd cr))) (list_prod (seq 0 4) (seq 0 20)))).
  split; [exact Hc|]. split; [exact S|]. split; [apply uniform_exists|].
  split. { apply Rmult_lt_0_compat; [destruct (sc_pathloss sc); [apply exp_pos|lra] | destruct (sc_shadow sc); lra]. }
  split.
  { assert (G : forall l : list (nat * nat), (forall x, In x l -> (fst x < 4)%nat) -> l <> [] ->
      0 < Rsum (map (fun cr => nth (fst cr) (r_powers y) 0 / 20 * (1 / r_xpr y (fst cr) (snd cr))) l)).
    { assert (G0 : forall x, (fst x < 4)%nat -> 0 < nth (fst x) (r_powers y) 0 / 20 * (1 / r_xpr y (fst x) (snd x))).
      { intros x Hx. apply Rmult_lt_0_compat; apply Rdiv_lt_0_compat; try lra; [apply PP, Hx|apply XP]. }
      induction l as [|x l IH]; intros Hl Nn; [congruence|]. cbn [map]. unfold Rsum in *. cbn [fold_right].
      pose proof (G0 x (Hl x (or_introl eq_refl))). destruct l as [|x' l]; [cbn; lra|].
      assert (Q := IH (fun w Hw => Hl w (or_intror Hw)) ltac:(discriminate)). lra. }
    apply G; [|discriminate]. intros [i j] H. apply in_prod_iff in H. destruct H as [H _]. apply in_seq in H. cbn; lia. }
  split; [exists p, p; auto|]. 
  split.
  { exists d. split; [exact VP|]. intros c9. subst c9. fold c. exists lsps, mask, rr, y, los. rewrite ES.
    split; [exact L1|]. split; [exact MK|]. split; [exact G1|]. split; [exact Y|].
    destruct (step_cases _ _ _ _ _ _ Ha ST) as [(_ & _ & [m Hm]) | (_ & _ & II & _)]; [discriminate|].
    destruct II as (_ & _ & I3 & I4 & _). cbn in I3, I4. repeat (split; [assumption || reflexivity|]). exact SL. }
  intros c9 t. subst c9.
  destruct (MAIN t) as (lsps2 & mask2 & rr2 & uo2 & bo2 & bs2 & g2 & los2 & ind2 & pl2 & m1 & m2 & C1 & C2 & C3 & C4 & C5 & C6 & C7 & C8 & C9 & C10 & C11 & C12 & C13).
  assert (lsps2 = lsps) by congruence. subst lsps2. assert (mask2 = mask) by congruence. subst mask2.
  cbn [cd_rays d] in C4. assert (rr2 = rr) by congruence. subst rr2. assert (los2 = los) by congruence. subst los2.
  assert (ind2 = T 1 1 (fun _ _ => false)) by congruence. subst ind2. assert (bs2 = t1 (V3 0 0 600000)) by congruence. subst bs2.
  assert (NN : m1 = 3%nat /\ m2 = 4%nat).
  { assert (Q1 := documented_value_fun _ _ _ _ _ _ _ _ (C12 true) (proj1 (dense_documented sc true Ha Henv))).
    assert (Q2 := documented_value_fun _ _ _ _ _ _ _ _ (C12 false) (proj1 (dense_documented sc false Ha Henv))).
    injection Q1 as Q1. injection Q2 as Q2. split; apply INR_eq; [rewrite Q1|rewrite Q2]; cbn; lra. }
  destruct NN as [-> ->]. cbn [Nat.max] in C13.
  assert (UO : uo2 = t1 (V3 0 0 0) /\ bo2 = t1 (V3 0 0 0)).
  { destruct (step_cases _ _ _ _ _ _ Ha ST) as [(_ & _ & [m Hm]) | (_ & _ & II & _)]; [discriminate|].
    destruct II as (_ & _ & I3 & I4 & _). cbn in I3, I4. split; congruence. }
  destruct UO as [-> ->].
  destruct (C13 eq_refl ltac:(rewrite LO2; discriminate) (conj eq_refl eq_refl) (conj eq_refl eq_refl)) as (y2 & Y2 & FIN).
  assert (y2 = y) by congruence. subst y2.
  assert (GEO : g_zod g2 0%nat 0%nat 0%nat = 135 /\ g_zoa g2 0%nat 0%nat 0%nat = 315).
  { destruct (update_content _ _ _ _ _ Ha ST) as (ut & bs0 & ind0 & pp & X1 & X2 & _ & _ & _ & _ & _ & _ & _ & _ & _ &
      (g0 & G1' & _ & _ & _ & G2' & G3' & _) & _).
    assert (g0 = g2) by congruence. subst g0. assert (ut = t1 (V3 600000 0 0)) by congruence. subst ut.
    assert (bs0 = t1 (V3 0 0 600000)) by congruence. subst bs0. split; [rewrite G2'; exact zod_135|]. rewrite G3'. exact zoa_315. }
  destruct GEO as [GD GA].
  assert (PLE : (if sc_pathloss sc then Rpower 10 (- pl2 0%nat 0%nat 0%nat / 10) else 1) = (if sc_pathloss sc then Rpower 10 (- pl 0%nat 0%nat 0%nat / 10) else 1)).
  { destruct (sc_pathloss sc); [|reflexivity]. specialize (A11 eq_refl). specialize (C11 eq_refl). assert (pl2 = pl) by congruence. subst; reflexivity. }
  rewrite <- PLE.
  refine (eq_trans (FIN (phase_grid 4) (27 * PI / 180) (uniform_exists 4) SL _ _ _ _) _).
  - rewrite GA. apply (cone_slanted _ 315 1); [|lra]. left. exists 0%Z. unfold degrees, deg_2_rad. field. apply PI_neq0.
  - rewrite GD. apply (cone_slanted _ 135 0); [|lra]. left. exists 0%Z. unfold degrees, deg_2_rad. field. apply PI_neq0.
  - intros _. rewrite Hfc. replace (2e9 / 1e9) with 2 by lra. lra.
  - cbn [t1 t_at vz]. intros; lra.
  - rewrite LO2, Rmult_1_l. reflexivity.
Qed.

Lemma mean_link_example_l srt srtd j1 : valid_argsort srt -> valid_argsort_desc srtd ->
  exists sc a dr z ua ba D E n gain leak, constructed sc /\ settled sc false [SetTopology a dr z] a dr z /\ uniform_phases n E /\
    0 < gain /\ 0 < leak /\
    (exists pu pb, vertical_omni pu /\ vertical_omni pb /\ make_array j1 pu = Ok ua /\ make_array j1 pb = Ok ba) /\
    (exists d, only_phases_vary (sc_dir sc) 0 0 0 d D) /\
    let c := chan_run sc false (chan_init sc) [SetTopology a dr z] in
    forall t, E (fun ph => match chan_call srt srtd sc ua ba false c 1e6 (D ph) with
                 | Ok o => creal (received_power (sc_dir sc) o 0 0 0 0 0 (n + 4) t) | Err _ => c0 end) =
    creal (gain * ((cos (27 * PI / 180))² + leak * (sin (27 * PI / 180))²)).
Proof.
  intros V VD. destruct (mean_link_setup srt srtd j1 V VD) as (sc & a & dr & z & ua & ba & D & E & n & gain & leak & H1 & H2 & H3 & H4 & H5 & H6 & (d & H7 & _) & H8).
  exists sc, a, dr, z, ua, ba, D, E, n, gain, leak. repeat (split; [assumption|]). split; [exists d; exact H7|exact H8].
Qed.
