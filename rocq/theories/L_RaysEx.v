(* Witness histories for the ray properties: reachable states in which a claim fails, and examples. *)
From Coq Require Import Reals String List Bool Arith Lia Lra ZArith QArith Qreals Permutation Sorting.Sorted.
From Verif Require Import M_Base L_Base M_Params S_Config L_Params L_Config M_Geometry M_Pathloss M_Scenario
  M_Lsp S_Lsp S_Topology L_Pathloss L_Trig L_Geometry L_Scenario L_Fresh L_Topology L_Corr L_Lsp M_Rays S_Rays L_Rays.
Import ListNotations.
Open Scope string_scope.
Open Scope list_scope.
Open Scope R_scope.

(* one satellite at 600 km and one UT *)
Definition one_ut (p : vec3) (indoor : bool) (l : option bool) : topo_args :=
  {| a_ut_loc := Some (t1 p); a_bs_loc := Some (t1 (V3 0 0 600000));
     a_ut_ori := Some (t1 (V3 0 0 0)); a_bs_ori := Some (t1 (V3 0 0 0));
     a_ut_vel := Some (t1 (V3 0 0 0)); a_in := Some (T 1 1 (fun _ _ => indoor));
     a_los := l; a_weather := no_weather; a_doppler := None |}.

Lemma one_ut_call sc p indoor l dr : constructed sc -> exists st',
  set_topology sc (init_state sc) (one_ut p indoor l) dr = (st', Ok true) /\
  s_ut_loc st' = Some (t1 p) /\ s_bs_loc st' = Some (t1 (V3 0 0 600000)) /\
  s_in st' = Some (T 1 1 (fun _ _ => indoor)).
Proof.
  intros Hc. assert (Ha := constructed_accepted sc Hc).
  destruct (full_call sc (init_state sc) (t1 p) (t1 (V3 0 0 600000)) (t1 (V3 0 0 0)) (t1 (V3 0 0 0)) (t1 (V3 0 0 0))
     (T 1 1 (fun _ _ => indoor)) l no_weather None dr Ha eq_refl eq_refl (le_n 1) eq_refl eq_refl)
    as (st' & H & A & B & _ & _ & _ & C).
  exists st'. auto.
Qed.

Definition no_angle_draws : angle_draws :=
  {| ad_sign := fun _ _ _ => true; ad_comp := fun _ _ _ _ => 0; ad_mix := fun _ _ _ _ => 0 |}.
Definition plain_draws (x : nat -> R) : ray_draws :=
  {| rd_x := fun _ _ _ => x; rd_shadow := fun _ _ _ _ => 0; rd_aoa := no_angle_draws; rd_aod := no_angle_draws;
     rd_zoa := no_angle_draws; rd_zod := no_angle_draws; rd_xpr := fun _ _ _ _ _ => 0 |}.

(* ---- C23: an indoor UT has no usable powers ---- *)
Lemma indoor_refuted_l sc p l dr : constructed sc -> exists st' ind mask,
  set_topology sc (init_state sc) (one_ut p true l) dr = (st', Ok true) /\
  s_in st' = Some ind /\ t_at ind 0%nat 0%nat = true /\ compute_clusters_mask st' = Ok mask /\
  forall srt lsps d, exists rr, gen_rays srt st' mask lsps d = Ok rr /\ rr 0%nat 0%nat 0%nat = None.
Proof.
  intros Hc. destruct (one_ut_call sc p true l dr Hc) as (st' & H & _ & _ & I).
  destruct (make_ready _ _ _ _ _ Hc H) as (ls & los & g & ind & bs & mask & R).
  assert (EI : ind = T 1 1 (fun _ _ => true)) by (assert (E := rd_in _ _ _ _ _ _ _ _ R); congruence).
  exists st', ind, mask. split; [exact H|]. split; [apply R|]. split; [rewrite EI; reflexivity|]. split; [apply R|].
  intros srt lsps d. eexists. split; [apply (gen_ready _ _ _ _ _ _ _ _ srt lsps d R)|].
  apply (link_rays_indoor _ _ _ _ _ _ _ _ srt lsps d _ 0 0 0 R (gen_ready _ _ _ _ _ _ _ _ srt lsps d R)).
  rewrite EI. reflexivity.
Qed.

(* ---- every positive K-factor is drawn for some normals ---- *)
Lemma sigmaK_values : for_cols (fun e ul sb los c =>
  negb los || negb (Qle_bool (qlook e ul sb los c "sigmaK") 0)) = true.
Proof. vm_compute. reflexivity. Qed.

Lemma sigmaK_pos sc s : accepted sc ->
  documented_value (sc_env sc) (sc_fc sc) (sc_dir sc) (sc_elev sc) true "sigmaK" (Fin s) -> 0 < s.
Proof.
  intros Ha D. rewrite (doc_qlook sc true "sigmaK" s Ha) by (try exact D; cbn; tauto).
  assert (F := for_cols_spec _ sigmaK_values (sc_env sc) (dir_ul (sc_dir sc)) (is_s_band (sc_fc sc)) true (angle_col (sc_elev sc))
    (angle_col_in _ (ac_elev _ Ha))). cbn [negb orb] in F.
  apply negb_true_iff in F.
  replace 0 with (Q2R 0) by (unfold Q2R; cbn; lra). apply Qlt_Rlt.
  destruct (Qlt_le_dec 0 (qlook (sc_env sc) (dir_ul (sc_dir sc)) (is_s_band (sc_fc sc)) true (angle_col (sc_elev sc)) "sigmaK")) as [X | X]; [exact X|].
  apply Qle_bool_iff in X. congruence.
Qed.

Lemma one_ut_los sc p l dr st' : constructed sc -> set_topology sc (init_state sc) (one_ut p false (Some l)) dr = (st', Ok true) ->
  exists los, s_los st' = Some los /\ los 0%nat 0%nat 0%nat = l.
Proof.
  intros Hc H. assert (Ha := constructed_accepted sc Hc).
  destruct (update_content _ _ _ _ _ Ha H) as (ut & bs & ind & pp & U1 & U2 & U3 & _ & _ & _ & _ & _ & _ & _ & _ & _ &
    (los & L1 & L2 & _) & _).
  destruct (one_ut_call sc p false (Some l) dr Hc) as (st2 & H2 & _ & _ & I). assert (st2 = st') by congruence. subst st2.
  exists los. split; [exact L1|]. rewrite L2. unfold sample_los.
  assert (E : s_req_los st' = Some l).
  { unfold set_topology in H. cbn in H. unfold update_topology in H.
    destruct (pv <- los_probability sc;; num_of pv); [| discriminate].
    destruct (compute_lsp_stat _ _ _); [| discriminate].
    destruct (compute_pathlosses _ _ _ _ _ _); [| discriminate].
    injection H as <-. reflexivity. }
  rewrite E. assert (EI : ind = T 1 1 (fun _ _ => false)) by congruence. rewrite EI. cbn [t_at negb]. apply andb_true_r.
Qed.

(* a LoS link of one UT can be given any K-factor by the normal draws *)
Lemma k_reached sc p dr st' C S Lx Lsp K : constructed sc ->
  set_topology sc (init_state sc) (one_ut p false (Some true)) dr = (st', Ok true) ->
  cross_matrix st' = Ok C -> spatial_matrix st' = Ok S ->
  is_cholesky 7 (C 0%nat 0%nat 0%nat) (Lx 0%nat 0%nat 0%nat) ->
  is_cholesky 1 (S 0%nat 0%nat 4%nat) (Lsp 0%nat 0%nat 4%nat) -> 0 < K ->
  exists z lsps, sample_lsp st' 1 Lx Lsp z = Ok lsps /\ l_k (lsps 0%nat 0%nat 0%nat) = K /\ 0 < l_ds (lsps 0%nat 0%nat 0%nat).
Proof.
  intros Hc H HC HS LX LS HK. assert (Ha := constructed_accepted sc Hc).
  destruct (make_ready _ _ _ _ _ Hc H) as (ls & los & g & ind & bs & mask & R).
  destruct (one_ut_los sc p true dr st' Hc H) as (los' & L1 & L2).
  assert (los' = los) by (assert (E := rd_los _ _ _ _ _ _ _ _ R); congruence). subst los'.
  set (lp := ls_col ls true).
  destruct (rd_col _ _ _ _ _ _ _ _ R true) as [DC _]. fold lp in DC. unfold documented_column in DC.
  assert (SK : 0 < lp_sigmaK lp) by (apply (sigmaK_pos sc); [exact Ha | tauto]).
  assert (P1 := ch_diag _ _ _ LX 4%nat ltac:(lia)). assert (P2 := ch_diag _ _ _ LS 0%nat ltac:(lia)).
  set (v := (log10 K * 10 - lp_muK lp) / lp_sigmaK lp).
  set (t := v / (Lx 0%nat 0%nat 0%nat 4%nat 4%nat * Lsp 0%nat 0%nat 4%nat 0%nat 0%nat)).
  exists (fun _ _ _ j => if Nat.eqb j 4 then t else 0).
  unfold sample_lsp. rewrite (rd_ls _ _ _ _ _ _ _ _ R). eexists. split; [reflexivity|].
  unfold make_lsp. cbn [l_k l_ds]. rewrite !(rd_mean _ _ _ _ _ _ _ _ R), L2. fold lp.
  cbn [lsp_log_mean lsp_value]. split; [| apply pow10_pos].
  rewrite <- (pow10_log10 K HK). f_equal.
  replace (ls_std ls 0 0 0 4) with (lp_sigmaK lp / 10).
  2:{ destruct (update_content _ _ _ _ _ Ha H) as (ut & bs0 & ind0 & pp & _ & _ & _ & _ & _ & _ & _ & _ & _ & _ & _ & _ &
        (los0 & L1' & _ & cl & cn & _ & _ & K3 & _) & _).
      assert (E := rd_ls _ _ _ _ _ _ _ _ R). rewrite K3 in E. injection E as E.
      unfold lp. rewrite <- E. cbn [ls_col ls_std lsp_log_std]. assert (los0 = los) by congruence. subst los0. rewrite L2. reflexivity. }
  unfold spatially_filtered, cross_filtered. cbn [sumR Nat.eqb].
  unfold t, v. field. lra.
Qed.

(* ---- C22: negative delays ---- *)
Lemma negative_delays_l sc : constructed sc ->
  exists a dr st' C S mask, set_topology sc (init_state sc) a dr = (st', Ok true) /\
    cross_matrix st' = Ok C /\ spatial_matrix st' = Ok S /\ compute_clusters_mask st' = Ok mask /\
    (exists L, is_cholesky 7 (C 0%nat 0%nat 0%nat) L) /\ (exists L, is_cholesky 1 (S 0%nat 0%nat 4%nat) L) /\
    forall Lx Lsp srt, is_cholesky 7 (C 0%nat 0%nat 0%nat) (Lx 0%nat 0%nat 0%nat) ->
      is_cholesky 1 (S 0%nat 0%nat 4%nat) (Lsp 0%nat 0%nat 4%nat) ->
      exists z lsps d rr r t, sample_lsp st' 1 Lx Lsp z = Ok lsps /\
        (forall b s u c, 1 / 10 ^ 6 <= rd_x d b s u c < 1) /\
        gen_rays srt st' mask lsps d = Ok rr /\ rr 0%nat 0%nat 0%nat = Some r /\ In t (r_delays r) /\ t < 0.
Proof.
  intros Hc. assert (Ha := constructed_accepted sc Hc).
  destruct (one_ut_call sc (V3 600000 0 0) false (Some true) no_draws Hc) as (st' & H & U & _ & I).
  destruct (make_ready _ _ _ _ _ Hc H) as (ls & los & g & ind & bs & mask & R).
  destruct (one_ut_los sc _ true _ st' Hc H) as (los' & L1 & L2).
  assert (los' = los) by (assert (E := rd_los _ _ _ _ _ _ _ _ R); congruence). subst los'.
  destruct (C19_l _ _ _ _ _ Hc H) as (los1 & C & _ & HC & P19).
  destruct (C20_l _ _ _ _ _ Hc H) as (ut & ind2 & los2 & S & U' & _ & _ & HS & P20).
  assert (EU : ut = t1 (V3 600000 0 0)) by congruence.
  exists (one_ut (V3 600000 0 0) false (Some true)), no_draws, st', C, S, mask.
  split; [exact H|]. split; [exact HC|]. split; [exact HS|]. split; [apply R|].
  split; [destruct (P19 0 0 0)%nat as (_ & _ & _ & _ & _ & Q); exact Q|].
  split.
  { destruct (lsp_index_of 4 ltac:(lia)) as (X & HX). destruct (P20 0%nat 0%nat X 4%nat HX) as (_ & _ & _ & _ & _ & _ & Q).
    rewrite EU in Q. cbn [t1 t_num] in Q. apply Q. intros u u' Hu Hu' N. lia. }
  intros Lx Lsp srt HLx HLs.
  destruct (k_reached sc _ _ st' C S Lx Lsp (pow10 (- 6.5)) Hc H HC HS HLx HLs (pow10_pos _)) as (z & lsps & Z & K & DS).
  set (d := plain_draws (fun c => if Nat.eqb c 0 then / 2 else / 4)).
  assert (HG := gen_ready _ _ _ _ _ _ _ _ srt lsps d R).
  assert (Hi : t_at ind 0%nat 0%nat = false).
  { assert (E := rd_in _ _ _ _ _ _ _ _ R). assert (ind = T 1 1 (fun _ _ => false)) by congruence. subst ind. reflexivity. }
  destruct (link_rays_outdoor _ _ _ _ _ _ _ _ _ _ _ _ 0 0 0 R HG Hi) as (r & Hr & D & _ & M & N).
  rewrite L2 in *. set (lp := ls_col ls true) in *.
  destruct (unscaled_perm (num_clusters_max ls) _ (lp_rTau lp) (l_ds (lsps 0%nat 0%nat 0%nat)) _ (rd_x d 0%nat 0%nat 0%nat) M ltac:(lia))
    as (_ & _ & _ & NN & t0 & P).
  set (un := unscaled_delays (num_clusters_max ls) (lp_rTau lp) (l_ds (lsps 0%nat 0%nat 0%nat)) (mask 0%nat 0%nat 0%nat) (rd_x d 0%nat 0%nat 0%nat)) in *.
  assert (N2 := rd_nc _ _ _ _ _ _ _ _ R true).
  assert (RT : 1 <= lp_rTau lp) by (destruct (rd_col _ _ _ _ _ _ _ _ R true) as [_ G]; assert (Q := gc_rTau _ _ G); unfold lp; lra).
  assert (T : exists t, In t un /\ 0 < t).
  { set (raw := raw_delay (n_clusters ls true) (lp_rTau lp) (l_ds (lsps 0%nat 0%nat 0%nat)) (rd_x d 0%nat 0%nat 0%nat)) in *.
    assert (I0 : In (raw 0%nat) (map (fun t => t + t0) un)).
    { apply (Permutation_in _ (Permutation_sym P)), in_map, in_seq. lia. }
    assert (I1 : In (raw 1%nat) (map (fun t => t + t0) un)).
    { apply (Permutation_in _ (Permutation_sym P)), in_map, in_seq. lia. }
    apply in_map_iff in I0, I1. destruct I0 as (y0 & E0 & Y0), I1 as (y1 & E1 & Y1).
    exists y1. split; [exact Y1|]. assert (A := NN y0 Y0). assert (raw 0%nat < raw 1%nat); [| lra].
    unfold raw, raw_delay. destruct (Nat.ltb_spec 0 (n_clusters ls true)); [| lia]. destruct (Nat.ltb_spec 1 (n_clusters ls true)); [| lia].
    cbn [rd_x d plain_draws Nat.eqb].
    assert (ln (/ 4) < ln (/ 2)) by (apply ln_increasing; lra).
    assert (0 < lp_rTau lp * l_ds (lsps 0%nat 0%nat 0%nat)) by (apply Rmult_lt_0_compat; lra). nra. }
  destruct T as (t & Ht & Tp).
  exists z, lsps, d. eexists. exists r, (t / delay_scaling (l_k (lsps 0%nat 0%nat 0%nat))).
  split; [exact Z|]. split.
  { intros b0 s0 u0 c. cbn [rd_x d plain_draws]. destruct (Nat.eqb c 0); lra. }
  split; [exact HG|]. split; [cbv beta; rewrite L2; exact Hr|]. split.
  - rewrite D. unfold cluster_delays. apply (in_map (fun t => t / delay_scaling (l_k (lsps 0%nat 0%nat 0%nat)))). exact Ht.
  - rewrite K. assert (X := delay_scaling_neg). unfold Rdiv.
    assert (/ delay_scaling (pow10 (- 6.5)) < 0) by (apply Rinv_lt_0_compat; exact X). nra.
Qed.

(* ---- C61: the NLoS departure zenith offset is in radians ---- *)
Lemma zsd_values : for_cols (fun e ul sb los c => ul ||
  match plookup_opt (param_key "muZSD" (string_of_Z c)) (tbl e ul sb los) with
  | Some v => match pval_Q v with None => true | _ => false end | None => false end) = true.
Proof. vm_compute. reflexivity. Qed.

Lemma zsd_neginf sc los : accepted sc -> sc_dir sc = "downlink" ->
  documented_value (sc_env sc) (sc_fc sc) (sc_dir sc) (sc_elev sc) los "muZSD" NegInf.
Proof.
  intros Ha Hd. assert (Ha' := Ha). destruct Ha' as [_ Hb He Hl Ht Hnl].
  assert (F := for_cols_spec _ zsd_values (sc_env sc) (dir_ul (sc_dir sc)) (is_s_band (sc_fc sc)) los (angle_col (sc_elev sc))
    (angle_col_in _ He)). cbv beta in F. rewrite Hd in F at 1. cbn [dir_ul String.eqb Ascii.eqb Bool.eqb orb] in F.
  change (string_of_Z (angle_col (sc_elev sc))) with (angle_str (sc_elev sc)) in F.
  destruct (plookup_opt (param_key "muZSD" (angle_str (sc_elev sc))) (tbl (sc_env sc) (dir_ul (sc_dir sc)) (is_s_band (sc_fc sc)) los)) as [v |] eqn:E; [| discriminate].
  assert (Hv : plookup (param_key "muZSD" (angle_str (sc_elev sc))) (if los then sc_plos sc else sc_pnlos sc) = Ok v).
  { unfold plookup. destruct los; [rewrite Ht | rewrite Hnl]; rewrite E; reflexivity. }
  assert (D := documented sc los "muZSD" v Ha Hv). rewrite pval_Q_ext in D. destruct (pval_Q v); [discriminate | exact D].
Qed.

Lemma zod_135 : los_zod (V3 600000 0 0) (V3 0 0 600000) = 135.
Proof.
  unfold los_zod. cbn [vz].
  replace (dist_2d (V3 600000 0 0) (V3 0 0 600000)) with 600000.
  2:{ unfold dist_2d, sq. cbn [vx vy]. replace ((600000 - 0) * (600000 - 0) + (0 - 0) * (0 - 0)) with (600000 * 600000) by ring.
      rewrite sqrt_square; lra. }
  unfold atan2. destruct (Rlt_dec 0 (0 - 600000)); [lra|]. destruct (Rlt_dec (0 - 600000) 0); [| lra].
  destruct (Rle_dec 0 600000); [| lra]. replace (600000 / (0 - 600000)) with (- (1)) by field.
  rewrite (atan_opp 1), atan_1. unfold rad_2_deg, wrap_angle_0_360. replace ((- (PI / 4) + PI) * (180 / PI)) with 135.
  - apply fmod_id; lra.
  - field. apply PI_neq0.
Qed.

Lemma zod_unit_l : exists sc a dr st' ut bs los mask,
  constructed sc /\ set_topology sc (init_state sc) a dr = (st', Ok true) /\ compute_clusters_mask st' = Ok mask /\
  s_ut_loc st' = Some ut /\ s_bs_loc st' = Some bs /\ s_los st' = Some los /\ los 0%nat 0%nat 0%nat = false /\
  documented_value (sc_env sc) (sc_fc sc) (sc_dir sc) (sc_elev sc) false "muZSD" NegInf /\
  160000 <= vz (t_at bs 0%nat 0%nat) /\
  let d := plane_distance (t_at ut 0%nat 0%nat) (t_at bs 0%nat 0%nat) in
  let shift_in_degrees := degrees (atan ((35 - 3.5) / d) - atan ((35 - 1.5) / d)) in
  forall srt lsps dd rr r, valid_argsort srt -> gen_rays srt st' mask lsps dd = Ok rr -> rr 0%nat 0%nat 0%nat = Some r ->
    forall c q, (q < 20)%nat ->
      ~ same_cone (degrees (r_zod r c q)) (los_zod (t_at ut 0%nat 0%nat) (t_at bs 0%nat 0%nat) + shift_in_degrees).
Proof.
  destruct example_constructed as (sc & Hc & _ & _ & Hd & _). assert (Ha := constructed_accepted sc Hc).
  destruct (one_ut_call sc (V3 600000 0 0) false (Some false) no_draws Hc) as (st' & H & U & B & I).
  destruct (one_ut_los sc _ false _ st' Hc H) as (los & L1 & L2).
  destruct (make_ready _ _ _ _ _ Hc H) as (ls & los' & g & ind & bs & mask & R).
  exists sc, (one_ut (V3 600000 0 0) false (Some false)), no_draws, st', (t1 (V3 600000 0 0)), (t1 (V3 0 0 600000)), los, mask.
  split; [exact Hc|]. split; [exact H|]. split; [apply R|]. split; [exact U|]. split; [exact B|]. split; [exact L1|]. split; [exact L2|].
  split; [apply zsd_neginf; assumption|]. split; [cbn [t1 t_at vz]; lra|].
  intros d sh srt lsps dd rr r HS HG Hr c q Hq.
  destruct (C25_l _ _ _ _ _ _ _ _ _ _ Hc H (rd_mask _ _ _ _ _ _ _ _ R) HS HG) as (los2 & g2 & ut2 & bs2 & A1 & A2 & A3 & A4 & Q).
  assert (los2 = los) by congruence. subst los2. assert (ut2 = t1 (V3 600000 0 0)) by congruence. subst ut2.
  assert (bs2 = t1 (V3 0 0 600000)) by congruence. subst bs2.
  specialize (Q 0%nat 0%nat 0%nat r Hr). rewrite L2 in Q. specialize (Q (fun E => match Bool.diff_false_true E with end)).
  destruct Q as (czsa & czsd & mz & cth & zr & _ & D & _ & Z & _ & _ & Q). specialize (Q c).
  destruct Q as (pa & pd & _ & _ & Q). destruct (Q q Hq) as (_ & _ & _ & Q' & _). clear Q.
  cbn [t1 t_at vz] in Q'. destruct (Rle_dec 160000 600000) as [_ |]; [| lra].
  assert (MZ : mz = NegInf) by (exact (documented_value_fun _ _ _ _ _ _ _ _ D (zsd_neginf sc false Ha Hd))).
  rewrite (Z MZ) in Q'.
  change (plane_distance {| vx := 600000; vy := 0; vz := 0 |} {| vx := 0; vy := 0; vz := 600000 |}) with d in Q'.
  set (sr := atan ((35 - 3.5) / d) - atan ((35 - 1.5) / d)) in *.
  assert (G135 : g_zod g2 0%nat 0%nat 0%nat = 135).
  { destruct (update_content _ _ _ _ _ Ha H) as (ut & bs0 & ind0 & pp & X1 & X2 & _ & _ & _ & _ & _ & _ & _ & _ & _ &
      (g0 & G1 & _ & _ & _ & G2 & _) & _).
    assert (g0 = g2) by congruence. subst g0. rewrite G2. assert (ut = t1 (V3 600000 0 0)) by congruence. subst ut.
    assert (bs0 = t1 (V3 0 0 600000)) by congruence. subst bs0. exact zod_135. }
  rewrite G135 in Q'. change (los_zod (t_at (t1 (V3 600000 0 0)) 0%nat 0%nat) (t_at (t1 (V3 0 0 600000)) 0%nat 0%nat)) with (los_zod (V3 600000 0 0) (V3 0 0 600000)); rewrite zod_135.
  assert (DZ : forall w pl n, zenith_deviation 0 (cth * ctheta_factor false (l_k (lsps 0%nat 0%nat 0%nat))) w pl n = 0).
  { intros w pl n. unfold zenith_deviation, Rdiv. destruct pl; ring. }
  rewrite DZ in Q'. replace (135 + 0 + sr + 0 * nth (pd q) ray_offsets 0) with (135 + sr) in Q' by ring.
  assert (Dv : d = 600000).
  { unfold d, plane_distance. cbn [t1 t_at vx vy]. replace ((600000 - 0) ^ 2 + (0 - 0) ^ 2) with (600000 * 600000) by ring.
    rewrite sqrt_square; lra. }
  assert (P4 := PI_4). assert (P3 := PI2_3_2).
  assert (SR : - (PI / 4) < sr < 0).
  { unfold sr. rewrite Dv. assert (X1 : atan ((35 - 3.5) / 600000) < atan ((35 - 1.5) / 600000)) by (apply atan_increasing; lra).
    assert (X2 : atan ((35 - 1.5) / 600000) < atan 1) by (apply atan_increasing; lra). rewrite atan_1 in X2.
    assert (X3 : atan 0 < atan ((35 - 3.5) / 600000)) by (apply atan_increasing; lra). rewrite atan_0 in X3. lra. }
  assert (SD : -45 < sh <= sr * 45).
  { unfold sh, degrees. fold sr. assert (IP : / PI * PI = 1) by (apply Rinv_l; lra).
    assert (IPos : 0 < / PI) by (apply Rinv_0_lt_compat; lra). unfold Rdiv. split.
    - replace (-45) with (- (PI * / 4) * (180 * / PI)) by (field; lra). apply Rmult_lt_compat_r; [lra|]. unfold Rdiv in SR. lra.
    - assert (/ PI >= / 4) by (apply Rle_ge, Rinv_le_contravar; lra). nra. }
  assert (PI4 : PI / 4 <= 1) by lra.
  unfold same_cone, same_angle in *. intros [(k & E) | (k & E)]; destruct Q' as [(k' & E') | (k' & E')].
  - rewrite E in E'. assert (IZR (k - k') * 360 = sr - sh) by (rewrite minus_IZR; lra).
    assert (A : -1 < IZR (k - k') < 1) by lra. destruct A as [A B']. apply lt_IZR in A. apply lt_IZR in B'.
    assert (k - k' = 0)%Z by lia. rewrite H1 in H0. lra.
  - rewrite E in E'. assert (IZR (k' - k) * 360 = 270 + sr + sh) by (rewrite minus_IZR; lra).
    assert (A : 0 < IZR (k' - k) < 1) by lra. destruct A as [A B']. apply lt_IZR in A. apply lt_IZR in B'. lia.
  - rewrite E in E'. assert (IZR (k - k') * 360 = 270 + sr + sh) by (rewrite minus_IZR; lra).
    assert (A : 0 < IZR (k - k') < 1) by lra. destruct A as [A B']. apply lt_IZR in A. apply lt_IZR in B'. lia.
  - rewrite E in E'. assert (IZR (k - k') * 360 = sh - sr) by (rewrite minus_IZR; lra).
    assert (A : -1 < IZR (k - k') < 1) by lra. destruct A as [A B']. apply lt_IZR in A. apply lt_IZR in B'.
    assert (k - k' = 0)%Z by lia. rewrite H1 in H0. lra.
Qed.

(* the hypotheses of the ray theorems are met by an outdoor LoS UT *)
Lemma rays_example_l : exists sc a dr st' mask los, constructed sc /\
  set_topology sc (init_state sc) a dr = (st', Ok true) /\ compute_clusters_mask st' = Ok mask /\
  s_los st' = Some los /\ los 0%nat 0%nat 0%nat = true /\
  exists srt d, valid_argsort srt /\ forall lsps, exists rr r, gen_rays srt st' mask lsps d = Ok rr /\ rr 0%nat 0%nat 0%nat = Some r.
Proof.
  destruct example_constructed as (sc & Hc & _).
  destruct (one_ut_call sc (V3 600000 0 0) false (Some true) no_draws Hc) as (st' & H & _ & _ & I).
  destruct (one_ut_los sc _ true _ st' Hc H) as (los & L1 & L2).
  destruct (make_ready _ _ _ _ _ Hc H) as (ls & los' & g & ind & bs & mask & R).
  exists sc, (one_ut (V3 600000 0 0) false (Some true)), no_draws, st', mask, los.
  split; [exact Hc|]. split; [exact H|]. split; [apply R|]. split; [exact L1|]. split; [exact L2|].
  exists argsort, (plain_draws (fun _ => / 2)). split; [exact argsort_valid|]. intros lsps.
  assert (HG := gen_ready _ _ _ _ _ _ _ _ argsort lsps (plain_draws (fun _ => / 2)) R).
  assert (Hi : t_at ind 0%nat 0%nat = false).
  { assert (E := rd_in _ _ _ _ _ _ _ _ R). assert (ind = T 1 1 (fun _ _ => false)) by congruence. subst ind. reflexivity. }
  destruct (link_rays_outdoor _ _ _ _ _ _ _ _ _ _ _ _ 0 0 0 R HG Hi) as (r & Hr & _).
  eexists. exists r. split; [exact HG | exact Hr].
Qed.

Lemma k_one_ok : Rpower 10 (- 6.3) <= 1.
Proof. rewrite <- (Rpower_O 10) by lra. apply Rle_Rpower; lra. Qed.

(* C25 at the level of one link: an indoor UT's arrivals are centred on 90 degrees *)
Lemma C25_indoor_l los spread cas cth la zo p sign z c r :
  exists center, (forall r', same_cone (zenith_angle ZOA los true spread cas cth la zo p sign z c r') (center + cas * nth r' ray_offsets 0)) /\
    center = 90 + zenith_deviation spread cth (rel_power p c) (sign c) (z c) /\
    0 <= zenith_angle ZOA los true spread cas cth la zo p sign z c r <= 180.
Proof.
  exists (90 + zenith_deviation spread cth (rel_power p c) (sign c) (z c)). split; [| split; [reflexivity | apply fold_180_range]].
  intros r'. unfold zenith_angle.
  replace (zenith_center ZOA los true spread cth la zo p sign z c) with (90 + zenith_deviation spread cth (rel_power p c) (sign c) (z c)).
  - apply fold_180_cone.
  - unfold zenith_center, zenith_deviation, zenith_prime, sgn, b2r. cbv zeta. destruct (sign c); unfold Rdiv; ring.
Qed.
