(* Lemmas on the readable properties and the outdoor-to-indoor loss (C77, C78). *)
From Coq Require Import Reals String List Bool Arith Lia Lra ZArith.
From Verif Require Import M_Base L_Base M_Params S_Config L_Params L_Config M_Geometry M_Pathloss M_Scenario
  M_Rays S_Topology S_Pathloss L_Pathloss L_Scenario L_Fresh L_Topology L_Loss M_Getters S_Getters.
Import ListNotations.
Open Scope string_scope.
Open Scope list_scope.
Open Scope R_scope.

Definition all_derived (st : state) : Prop :=
  s_d2d st <> None /\ s_geo st <> None /\ s_ind st <> None /\ s_los st <> None /\ s_lsp st <> None /\
  s_pl st <> None /\ s_weather st <> None.
Definition all_inputs (st : state) : Prop :=
  s_ut_loc st <> None /\ s_bs_loc st <> None /\ s_ut_ori st <> None /\ s_bs_ori st <> None /\
  s_ut_vel st <> None /\ s_in st <> None.

Lemma update_keeps sc st ut bs ind w dr : all_derived st ->
  all_derived (fst (update_topology sc st ut bs ind w dr)).
Proof.
  intros (A & B & C & D & E & F & G). unfold update_topology.
  destruct (distance_2d ut bs) as [d2|]; [| repeat split; assumption].
  cbv zeta.
  destruct (distance_3d_and_angles _ ut bs) as [g|]; [| repeat split; cbn; congruence].
  destruct (sample_indoor _ _ _ _ _) as [i|]; [| repeat split; cbn; congruence].
  destruct (pv <- los_probability sc ;; num_of pv) as [p|]; [| repeat split; cbn; congruence].
  destruct (compute_lsp_stat _ _ _) as [ls|]; [| repeat split; cbn; congruence].
  destruct (compute_pathlosses _ _ _ _ _ _) as [pl|]; repeat split; cbn; congruence.
Qed.

Lemma store_derived st a : all_derived st -> all_derived (store_args st a).
Proof. intros (A & B & C & D & E & F & G). repeat split; cbn; try assumption. discriminate. Qed.

Lemma or_else_set {A} (x y : option A) : y <> None -> or_else x y <> None.
Proof. destruct x; cbn; [discriminate | auto]. Qed.

Lemma step_keeps sc st o : accepted sc -> all_derived st /\ all_inputs st ->
  all_derived (step sc st o) /\ all_inputs (step sc st o).
Proof.
  intros Ha [HD HI]. unfold step. destruct (set_topology sc st (fst o) (snd o)) as [st' r] eqn:E. cbn [fst].
  destruct (step_cases _ _ _ _ _ _ Ha E) as [(_ & -> & _) | (C & _ & I & _)]; [split; assumption|].
  split.
  - destruct (set_topology_complete sc st (fst o) (snd o) C) as (ut & bs & ind & _ & _ & _ & E').
    rewrite E in E'. destruct (need_for_update (fst o)).
    + assert (st' = fst (update_topology sc (store_args st (fst o)) ut bs ind
        (set_weather (a_weather (fst o))) (snd o))) as -> by (rewrite <- E'; reflexivity).
      apply update_keeps, store_derived, HD.
    + injection E' as -> _. apply store_derived, HD.
  - destruct I as (I1 & I2 & I3 & I4 & I5 & I6 & _).
    destruct HI as (J1 & J2 & J3 & J4 & J5 & J6).
    repeat split; [rewrite I1|rewrite I2|rewrite I3|rewrite I4|rewrite I5|rewrite I6]; cbn;
      apply or_else_set; assumption.
Qed.

Lemma run_keeps sc ops : forall st, accepted sc -> all_derived st /\ all_inputs st ->
  all_derived (run sc st ops) /\ all_inputs (run sc st ops).
Proof.
  induction ops as [| o ops IH]; intros st Ha H; [exact H|].
  cbn [run fold_left]. fold (run sc (step sc st o) ops). apply IH; [exact Ha|]. apply step_keeps; assumption.
Qed.

Lemma given_set {A} (x y : option A) : given x || given y = true -> or_else x y <> None.
Proof. destruct x, y; cbn; discriminate. Qed.

Lemma updated_all sc st o : accepted sc -> snd (set_topology sc st (fst o) (snd o)) = Ok true ->
  all_derived (step sc st o) /\ all_inputs (step sc st o).
Proof.
  intros Ha H. unfold step. destruct (set_topology sc st (fst o) (snd o)) as [st' r] eqn:E.
  cbn [fst snd] in *. subst r.
  destruct (step_cases _ _ _ _ _ _ Ha E) as [(_ & _ & [m Hm]) | (C & _ & I & W)]; [discriminate|].
  split.
  - destruct (update_content _ _ _ _ _ Ha E) as (ut & bs & ind & p & _ & _ & _ & _ & _ & _ & _ & _ & _ & W' & D &
      (g & G & _) & (los & L & _ & cl & cn & _ & _ & LS & pl & P & _) & (i & II & _)).
    repeat split; congruence.
  - destruct I as (I1 & I2 & I3 & I4 & I5 & I6 & _).
    unfold complete_call in C. repeat (apply andb_true_iff in C; destruct C as [C ?]).
    repeat split; [rewrite I1|rewrite I2|rewrite I3|rewrite I4|rewrite I5|rewrite I6]; cbn;
      apply given_set; assumption.
Qed.

Lemma after_update sc ops : forall st, accepted sc ->
  (exists o, In (o, Ok true) (trace sc st ops)) ->
  all_derived (run sc st ops) /\ all_inputs (run sc st ops).
Proof.
  induction ops as [| o ops IH]; intros st Ha [o' H]; [destruct H|].
  cbn [trace] in H. cbn [run fold_left]. fold (run sc (step sc st o) ops).
  destruct H as [H | H].
  - injection H as <- H. apply run_keeps; [exact Ha|]. apply updated_all; assumption.
  - apply IH; [exact Ha|]. exists o'. exact H.
Qed.

Lemma all_rejected_init sc ops : forall st, accepted sc ->
  (forall o r, In (o, r) (trace sc st ops) -> rejected r) -> run sc st ops = st.
Proof.
  induction ops as [| o ops IH]; intros st Ha H; [reflexivity|].
  cbn [run fold_left]. fold (run sc (step sc st o) ops).
  assert (S : step sc st o = st).
  { unfold step. destruct (set_topology sc st (fst o) (snd o)) as [st' r] eqn:E. cbn [fst].
    destruct (step_cases _ _ _ _ _ _ Ha E) as [(_ & -> & _) | (_ & NR & _)]; [reflexivity|].
    exfalso. apply NR. apply (H o). cbn [trace]. left. rewrite E. reflexivity. }
  rewrite S. apply IH; [exact Ha|]. intros o' r' I. apply (H o' r'). cbn [trace]. right. rewrite S. exact I.
Qed.

Ltac each_name H := repeat (destruct H as [<- | H]; [cbn [read getters find fst String.eqb Ascii.eqb Bool.eqb] |]); [.. | destruct H].

Lemma set_some {A} (x : option A) : x <> None -> exists v, x = Some v.
Proof. destruct x as [v|]; [exists v; reflexivity | congruence]. Qed.

Lemma readable_after_update sc ops n : constructed sc ->
  (exists o, In (o, Ok true) (trace sc (init_state sc) ops)) ->
  In n (input_properties ++ size_properties ++ link_properties ++ weather_properties) ->
  exists v, read sc (run sc (init_state sc) ops) n = Ok v /\ v <> VNone.
Proof.
  intros Hc H I. assert (Ha := constructed_accepted sc Hc).
  destruct (after_update sc ops (init_state sc) Ha H) as [(D1 & D2 & D3 & D4 & D5 & D6 & D7) (I1 & I2 & I3 & I4 & I5 & I6)].
  set (st := run sc (init_state sc) ops) in *. clearbody st.
  apply set_some in D1, D2, D3, D4, D5, D6, D7, I1, I2, I3, I4, I5, I6.
  destruct D1 as [? D1], D2 as [? D2], D3 as [? D3], D4 as [? D4], D5 as [? D5], D6 as [? D6], D7 as [? D7],
    I1 as [? I1], I2 as [? I2], I3 as [? I3], I4 as [? I4], I5 as [? I5], I6 as [? I6].
  destruct (los_prob_ok sc Ha) as (p & P1 & _).
  cbn [app input_properties size_properties link_properties weather_properties In] in I.
  each_name I; unfold read; cbn;
    rewrite ?D1, ?D2, ?D3, ?D4, ?D5, ?D6, ?D7, ?I1, ?I2, ?I3, ?I4, ?I5, ?I6; cbn;
    try (eexists; split; [reflexivity | discriminate]).
  unfold bind in P1 |- *. destruct (los_probability sc) as [v|]; [| discriminate].
  rewrite P1. eexists; split; [reflexivity | discriminate].
Qed.

Lemma unreadable_before sc ops n : constructed sc ->
  (forall o r, In (o, r) (trace sc (init_state sc) ops) -> rejected r) ->
  (In n input_properties -> read sc (run sc (init_state sc) ops) n = Ok VNone) /\
  (In n size_properties -> exists m, read sc (run sc (init_state sc) ops) n = Err (ValueError m) \/
                                     read sc (run sc (init_state sc) ops) n = Err (TypeError m)) /\
  (In n (link_properties ++ weather_properties) ->
     exists m, read sc (run sc (init_state sc) ops) n = Err (AttributeError m)).
Proof.
  intros Hc H. assert (Ha := constructed_accepted sc Hc).
  rewrite (all_rejected_init sc ops (init_state sc) Ha H).
  destruct (los_prob_ok sc Ha) as (p & P1 & _).
  split; [|split]; intros I.
  - cbn [input_properties In] in I. each_name I; reflexivity.
  - cbn [size_properties In] in I. each_name I; eexists; ((left; reflexivity) || (right; reflexivity)).
  - cbn [app link_properties weather_properties In] in I.
    each_name I; unfold read; cbn; try (eexists; reflexivity).
    unfold bind in P1 |- *. destruct (los_probability sc) as [v|]; [| discriminate].
    rewrite P1. eexists; reflexivity.
Qed.

Lemma configuration_read_back e fc ut bs dir elev pathloss shadow doppler sc ops :
  scenario_init e fc ut bs dir elev pathloss shadow doppler = Ok sc ->
  let get := read sc (run sc (init_state sc) ops) in
  get "carrier_frequency" = Ok (VReal fc) /\ get "direction" = Ok (VStr dir) /\
  get "elevation_angle" = Ok (VReal elev) /\ get "pathloss_enabled" = Ok (VBool pathloss) /\
  get "shadow_fading_enabled" = Ok (VBool shadow) /\
  (exists l, get "lambda_0" = Ok (VReal l) /\ l * fc = 299792458) /\
  get "min_2d_in" = Ok (VReal 0) /\ get "max_2d_in" = Ok (VReal 10) /\
  get "rays_per_cluster" = Ok (VNat 20) /\
  exists n1 n2, get "num_clusters_los" = Ok (VEntry (PInt n1)) /\ get "num_clusters_nlos" = Ok (VEntry (PInt n2)) /\
    get "num_clusters_max" = Ok (VEntry (PInt (Z.max n1 n2))) /\ (2 <= n1 <= 4)%Z /\ (2 <= n2 <= 4)%Z.
Proof.
  intros H. cbv zeta. unfold read. cbn.
  destruct (init_accepted _ _ _ _ _ _ _ _ _ _ H) as (Ha & A1 & A2 & A3 & A4 & A5 & A6 & A7).
  destruct (direct_lookups sc Ha) as ((n1 & N1 & B1) & (n2 & N2 & B2) & _).
  rewrite A2, A3, A4, A5, A6. repeat (split; [reflexivity|]).
  split.
  { eexists. split; [reflexivity|]. rewrite (ac_lambda _ Ha), A2. unfold speed_of_light.
    destruct (ac_band _ Ha) as [B|B]; unfold in_S_band, in_Ka_band in B; rewrite A2 in B; field; lra. }
  repeat (split; [reflexivity|]).
  exists n1, n2. rewrite N1, N2. cbn. auto 10.
Qed.

Lemma sizes_consistent sc st t : read sc st "ut_loc" = Ok (VPts t) ->
  read sc st "batch_size" = Ok (VNat (t_batch t)) /\ read sc st "num_ut" = Ok (VNat (t_num t)) /\
  exists h, read sc st "h_ut" = Ok (VRow h) /\ t_batch h = t_batch t /\ t_num h = t_num t /\
    forall b u, t_at h b u = vz (t_at t b u).
Proof.
  unfold read. cbn. unfold stored. destruct (s_ut_loc st) as [t'|]; [| discriminate]. intros [= <-]. cbn.
  split; [reflexivity|]. split; [reflexivity|]. eexists. split; [reflexivity|]. cbn. auto.
Qed.

Lemma bs_sizes_consistent sc st t : read sc st "bs_loc" = Ok (VPts t) ->
  read sc st "num_bs" = Ok (VNat (t_num t)) /\
  exists h, read sc st "h_bs" = Ok (VRow h) /\ t_batch h = t_batch t /\ t_num h = t_num t /\
    forall b u, t_at h b u = vz (t_at t b u).
Proof.
  unfold read. cbn. unfold stored. destruct (s_bs_loc st) as [t'|]; [| discriminate]. intros [= <-]. cbn.
  split; [reflexivity|]. eexists. split; [reflexivity|]. cbn. auto.
Qed.

Lemma stored_pts x v : stored VPts x = Ok (VPts v) <-> x = Some v.
Proof. unfold stored. destruct x; split; intros H; inversion H; reflexivity. Qed.
Lemma stored_mask x v : stored VMask x = Ok (VMask v) <-> x = Some v.
Proof. unfold stored. destruct x; split; intros H; inversion H; reflexivity. Qed.

Lemma inputs_read_back sc ops : constructed sc ->
  let get := read sc (run sc (init_state sc) ops) in
  let latest := fun A (arg : topo_args -> option A) => is_latest (fun r => ~ rejected r) arg (trace sc (init_state sc) ops) in
  (forall v, get "ut_loc" = Ok (VPts v) <-> latest _ a_ut_loc v) /\
  (forall v, get "bs_loc" = Ok (VPts v) <-> latest _ a_bs_loc v) /\
  (forall v, get "ut_orientations" = Ok (VPts v) <-> latest _ a_ut_ori v) /\
  (forall v, get "bs_orientations" = Ok (VPts v) <-> latest _ a_bs_ori v) /\
  (forall v, get "ut_velocities" = Ok (VPts v) <-> latest _ a_ut_vel v) /\
  (forall v, get "indoor" = Ok (VMask v) <-> latest _ a_in v).
Proof.
  intros Hc. cbv zeta. destruct (C06_stored_l sc ops Hc) as [A B C D E F _].
  repeat split; intros H.
  all: try (apply A + apply B + apply C + apply D + apply E + apply F;
            first [apply (proj1 (stored_pts _ _)) | apply (proj1 (stored_mask _ _))]; exact H).
  all: try (first [apply (proj2 (stored_pts _ _)) | apply (proj2 (stored_mask _ _))];
            first [apply A | apply B | apply C | apply D | apply E | apply F]; exact H).
Qed.

Lemma additional_never_set sc ops : exists m,
  read sc (run sc (init_state sc) ops) "additional_pathloss" = Err (AttributeError m).
Proof. eexists. reflexivity. Qed.

Lemma free_space_part sc st a dr st' : constructed sc -> set_topology sc st a dr = (st', Ok true) ->
  exists los d f p sl sn cl,
    read sc st' "los" = Ok (VGridB los) /\ read sc st' "distance_3d" = Ok (VGrid d) /\
    read sc st' "free_space_pathloss" = Ok (VGrid f) /\ read sc st' "basic_pathloss" = Ok (VGrid p) /\
    let doc := documented_value (sc_env sc) (sc_fc sc) (sc_dir sc) (sc_elev sc) in
    doc true "sigmaSF" (Fin sl) /\ doc false "sigmaSF" (Fin sn) /\ doc false "CL" (Fin cl) /\
    forall b s u, f b s u = free_space (sc_fc sc) (d b s u) /\
      p b s u = f b s u + (if los b s u then sl * dr_z_los dr b s u else sn * dr_z_nlos dr b s u + cl).
Proof.
  intros Hc H. assert (Ha := constructed_accepted sc Hc).
  destruct (update_content _ _ _ _ _ Ha H) as (ut & bs & ind & p & _ & _ & _ & _ & _ & _ & _ & _ & _ & _ & _ &
    (g & G1 & G2 & _) & (los & L1 & _ & cl' & cn' & _ & _ & _ & pl & P1 & P2) & _).
  destruct (direct_lookups sc Ha) as (_ & _ & _ & (vc & rc & C1 & C2 & C3) & (vl & rl & S1 & S2 & S3) & (vn & rn & N1 & N2 & N3)).
  unfold compute_pathlosses in P2. rewrite C1, S1, N1 in P2. cbn [bind] in P2.
  rewrite (num_ext _ _ C2), (num_ext _ _ S2), (num_ext _ _ N2) in P2. cbn [bind] in P2.
  injection P2 as <-.
  exists los, (g_d3d g). unfold read. cbn. rewrite L1, G1, P1. cbn [derived pl_f pl_b].
  do 2 eexists. exists rl, rn, rc.
  split; [reflexivity|]. split; [reflexivity|]. split; [reflexivity|]. split; [reflexivity|].
  split; [rewrite <- S2; apply (documented sc true "sigmaSF"); [exact Ha | exact S1]|].
  split; [rewrite <- N2; apply (documented sc false "sigmaSF"); [exact Ha | exact N1]|].
  split; [rewrite <- C2; apply (documented sc false "CL"); [exact Ha | exact C1]|].
  intros b s u. rewrite ?G2. split; [reflexivity|]. change free_space with fspl. rewrite ?G2.
  unfold pl_basic. destruct (los b s u); ring.
Qed.

(* ---- outdoor-to-indoor loss ---- *)
Lemma from_dB_pow10 x : from_dB x = pow10 (x / 10).
Proof. unfold from_dB, pow10, Rpower. reflexivity. Qed.

Lemma wall_transmission_pos share l1 l2 : 0 <= share <= 1 -> 0 < wall_transmission share l1 l2.
Proof.
  intros H. unfold wall_transmission. rewrite !from_dB_pow10.
  assert (A := pow10_pos (- l1 / 10)). assert (B := pow10_pos (- l2 / 10)).
  destruct (Rle_lt_dec share 0) as [S|S].
  - replace share with 0 by lra. lra.
  - assert (0 < share * pow10 (- l1 / 10)) by (apply Rmult_lt_0_compat; lra).
    assert (0 <= (1 - share) * pow10 (- l2 / 10)) by (apply Rmult_le_pos; lra). lra.
Qed.

Lemma wall_low_eq f : o2i_wall_low f = 5 - 10 * log10 (wall_transmission 0.3 (glass f) (concrete f)).
Proof. unfold o2i_wall_low, wall_transmission, glass, concrete. rewrite !from_dB_pow10. do 3 f_equal. f_equal. lra. Qed.
Lemma wall_high_eq f : o2i_wall_high f = 5 - 10 * log10 (wall_transmission 0.7 (coated_glass f) (concrete f)).
Proof. unfold o2i_wall_high, wall_transmission, coated_glass, concrete. rewrite !from_dB_pow10. do 3 f_equal. f_equal. lra. Qed.

Lemma loss_from_transmission t : 0 < t -> from_dB (- (5 - 10 * log10 t - 5)) = t.
Proof.
  intros H. rewrite from_dB_pow10. replace (- (5 - 10 * log10 t - 5) / 10) with (log10 t) by lra.
  apply pow10_log10, H.
Qed.

Lemma o2i_content wall sigma sc st a dr st' z : constructed sc -> set_topology sc st a dr = (st', Ok true) ->
  exists ind d f, read sc st' "indoor" = Ok (VMask ind) /\ read sc st' "distance_2d_in" = Ok (VGrid d) /\
    o2i_loss wall sigma sc st' z = Ok f /\
    forall b s u, (t_at ind b u = false -> f b s u = 0) /\
      (t_at ind b u = true -> f b s u = wall (sc_fc sc / 10 ^ 9) + 0.5 * d b s u + sigma * z b s u /\
         d b s u = dr_indoor dr b s u).
Proof.
  intros Hc H. assert (Ha := constructed_accepted sc Hc).
  destruct (update_content _ _ _ _ _ Ha H) as (ut & bs & ind & p & _ & _ & I & _ & _ & _ & B1 & B2 & _ & _ & _ & _ & _ &
    (i & J1 & J2)).
  unfold sample_indoor in J2. rewrite B1, B2, !Nat.eqb_refl in J2. cbn [andb] in J2. injection J2 as <-.
  exists ind. unfold read, o2i_loss. cbn. rewrite I, J1. cbn.
  do 2 eexists. split; [reflexivity|]. split; [reflexivity|]. split; [reflexivity|].
  intros b s u. unfold b2r. cbn. split; intros E; rewrite E; [ring|]. split; ring.
Qed.

Lemma o2i_low_spec sc st a dr st' z : constructed sc -> set_topology sc st a dr = (st', Ok true) ->
  exists ind d f wall, read sc st' "indoor" = Ok (VMask ind) /\ read sc st' "distance_2d_in" = Ok (VGrid d) /\
    o2i_low_loss sc st' z = Ok f /\
    from_dB (- (wall - 5)) = wall_transmission 0.3 (glass (sc_fc sc / 10 ^ 9)) (concrete (sc_fc sc / 10 ^ 9)) /\
    forall b s u, (t_at ind b u = false -> f b s u = 0) /\
      (t_at ind b u = true -> f b s u = wall + 0.5 * d b s u + 4.4 * z b s u /\ d b s u = dr_indoor dr b s u).
Proof.
  intros Hc H. destruct (o2i_content o2i_wall_low 4.4 sc st a dr st' z Hc H) as (ind & d & f & A & B & C & D).
  exists ind, d, f, (o2i_wall_low (sc_fc sc / 10 ^ 9)). split; [exact A|]. split; [exact B|]. split; [exact C|].
  split; [| exact D]. rewrite wall_low_eq. apply loss_from_transmission, wall_transmission_pos. lra.
Qed.

Lemma o2i_high_spec sc st a dr st' z : constructed sc -> set_topology sc st a dr = (st', Ok true) ->
  exists ind d f wall, read sc st' "indoor" = Ok (VMask ind) /\ read sc st' "distance_2d_in" = Ok (VGrid d) /\
    o2i_high_loss sc st' z = Ok f /\
    from_dB (- (wall - 5)) = wall_transmission 0.7 (coated_glass (sc_fc sc / 10 ^ 9)) (concrete (sc_fc sc / 10 ^ 9)) /\
    forall b s u, (t_at ind b u = false -> f b s u = 0) /\
      (t_at ind b u = true -> f b s u = wall + 0.5 * d b s u + 6.5 * z b s u /\ d b s u = dr_indoor dr b s u).
Proof.
  intros Hc H. destruct (o2i_content o2i_wall_high 6.5 sc st a dr st' z Hc H) as (ind & d & f & A & B & C & D).
  exists ind, d, f, (o2i_wall_high (sc_fc sc / 10 ^ 9)). split; [exact A|]. split; [exact B|]. split; [exact C|].
  split; [| exact D]. rewrite wall_high_eq. apply loss_from_transmission, wall_transmission_pos. lra.
Qed.

Lemma transmission_decreases share l1 l2 m1 m2 : 0 < share < 1 -> l1 < m1 -> l2 < m2 ->
  wall_transmission share m1 m2 < wall_transmission share l1 l2.
Proof.
  intros H A B. unfold wall_transmission. rewrite !from_dB_pow10.
  apply Rplus_lt_compat; apply Rmult_lt_compat_l; try lra; apply pow10_increasing; lra.
Qed.

(* the wall of a single material loses 5 dB more than the material *)
Lemma transmission_one share l : wall_transmission share l l = pow10 (- l / 10).
Proof. unfold wall_transmission. rewrite !from_dB_pow10. ring. Qed.

Lemma transmission_le share l1 l2 m1 m2 : 0 <= share <= 1 -> l1 <= m1 -> l2 <= m2 ->
  wall_transmission share m1 m2 <= wall_transmission share l1 l2.
Proof.
  intros H A B. unfold wall_transmission. rewrite !from_dB_pow10.
  apply Rplus_le_compat; apply Rmult_le_compat_l; try lra; apply pow10_le; lra.
Qed.

Lemma log10_le x y : 0 < x -> x <= y -> log10 x <= log10 y.
Proof. intros H [L| ->]; [left; apply log10_increasing; assumption | lra]. Qed.

Lemma wall_between share l1 l2 : 0 <= share <= 1 ->
  5 + Rmin l1 l2 <= 5 - 10 * log10 (wall_transmission share l1 l2) <= 5 + Rmax l1 l2.
Proof.
  intros H. assert (P := wall_transmission_pos share l1 l2 H). split.
  - assert (L : wall_transmission share l1 l2 <= pow10 (- Rmin l1 l2 / 10)).
    { rewrite <- (transmission_one share). apply transmission_le; [exact H | apply Rmin_l | apply Rmin_r]. }
    apply log10_le in L; [| exact P]. rewrite log10_pow10 in L. lra.
  - assert (L : pow10 (- Rmax l1 l2 / 10) <= wall_transmission share l1 l2).
    { rewrite <- (transmission_one share). apply transmission_le; [exact H | apply Rmax_l | apply Rmax_r]. }
    apply log10_le in L; [| apply pow10_pos]. rewrite log10_pow10 in L. lra.
Qed.

Lemma o2i_wall_laws f : 0 <= f ->
  5 + Rmin (glass f) (concrete f) <= o2i_wall_low f <= 5 + Rmax (glass f) (concrete f) /\
  5 + Rmin (coated_glass f) (concrete f) <= o2i_wall_high f <= 5 + Rmax (coated_glass f) (concrete f) /\
  (forall g, f < g -> o2i_wall_low f < o2i_wall_low g /\ o2i_wall_high f < o2i_wall_high g) /\
  o2i_wall_low f < o2i_wall_high f.
Proof.
  intros Hf. rewrite wall_low_eq, wall_high_eq.
  split; [apply wall_between; lra|]. split; [apply wall_between; lra|]. split.
  - intros g Hg. rewrite wall_low_eq, wall_high_eq. split.
    + assert (L := transmission_decreases 0.3 (glass f) (concrete f) (glass g) (concrete g)).
      apply log10_increasing in L; [lra | apply wall_transmission_pos; lra | lra | unfold glass; lra | unfold concrete; lra].
    + assert (L := transmission_decreases 0.7 (coated_glass f) (concrete f) (coated_glass g) (concrete g)).
      apply log10_increasing in L; [lra | apply wall_transmission_pos; lra | lra | unfold coated_glass; lra | unfold concrete; lra].
  - assert (L : wall_transmission 0.7 (coated_glass f) (concrete f) < wall_transmission 0.3 (glass f) (concrete f)).
    { unfold wall_transmission. rewrite !from_dB_pow10.
      assert (A : pow10 (- coated_glass f / 10) <= pow10 (-2 + - glass f / 10)) by (apply pow10_le; unfold coated_glass, glass; lra).
      rewrite pow10_plus in A.
      assert (P2 : pow10 (-2) = 1 / 100).
      { replace (-2) with (- (1 + 1)) by lra. rewrite pow10_opp, pow10_plus.
        assert (E : pow10 1 = 10) by (unfold pow10; apply Rpower_1; lra). rewrite E. lra. }
      rewrite P2 in A. assert (B := pow10_pos (- glass f / 10)). assert (C := pow10_pos (- concrete f / 10)). lra. }
    apply log10_increasing in L; [lra | apply wall_transmission_pos; lra].
Qed.
