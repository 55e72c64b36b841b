(* Uplink and downlink from 600 km on (C31, C66): the Faraday rotation breaks the exchange of the link ends. *)
From Coq Require Import Reals String List Bool Arith Lia Lra ZArith QArith Qreals Permutation Sorting.Sorted.
From Verif Require Import M_Base L_Base M_Params S_Config L_Params L_Config M_Geometry M_Pathloss M_Scenario
  M_Lsp S_Linear L_Linear S_Lsp S_Topology L_Pathloss L_Trig L_Geometry L_Scenario L_Fresh L_Topology L_Corr L_Lsp
  S_Pathloss L_Loss M_Rays S_Rays L_Rays L_RaysEx M_Antenna M_Cplx M_Coeff S_Coeff L_Rotation L_Coeff M_Channel S_Channel L_Chol L_Channel L_Link L_LinkEx.
Import ListNotations.
Open Scope string_scope.
Open Scope list_scope.
Open Scope R_scope.

Lemma faraday_sin fc : in_S_band fc \/ in_Ka_band fc -> 0 < sin (faraday_angle fc).
Proof.
  intros H. assert (F : 1.9 <= fc / 1e9).
  { apply Rmult_le_reg_r with (1e9); [lra|]. unfold Rdiv. rewrite Rmult_assoc, Rinv_l by lra. unfold in_S_band, in_Ka_band in H. lra. }
  unfold faraday_angle. cbv zeta. set (f := fc / 1e9) in *. clearbody f.
  assert (Q : 3 <= f * f) by nra. assert (P := PI_RGT_0).
  assert (I : 0 < / (f * f) <= / 3).
  { split; [apply Rinv_0_lt_compat; lra|]. apply Rinv_le_contravar; lra. }
  apply sin_gt_0; unfold Rdiv; nra.
Qed.

(* one ray between vertical omni antennas: what exchanging the link ends changes *)
Lemma ray_exchange g T y time ph c r t :
  cg_tx g = omni_array -> cg_rx g = omni_array -> lt_tx_ori T = V3 0 0 0 -> lt_rx_ori T = V3 0 0 0 ->
  600000 <= lt_bs_height T ->
  exists k, (0 < nth c (r_powers y) 0 -> cnorm2 k <> 0) /\
    nlos_ray g T y time ph c r 0%nat 0%nat t =
    cadd (nlos_ray (swap_gen g) (swap_topo T) (swap_rays y) time (swap_phases ph) c r 0%nat 0%nat t)
         (cmul k (cmul (creal (sin (faraday_angle (cg_fc g)) * sqrt (1 / r_xpr y c r)))
                       (csub (cexpi (ph c r 1%nat)) (cexpi (ph c r 2%nat))))).
Proof.
  intros E1 E2 E3 E4 Hh. unfold nlos_ray. cbv zeta.
  change (r_aoa (swap_rays y)) with (r_aod y). change (r_aod (swap_rays y)) with (r_aoa y).
  change (r_zoa (swap_rays y)) with (r_zod y). change (r_zod (swap_rays y)) with (r_zoa y).
  change (r_powers (swap_rays y)) with (r_powers y). change (r_xpr (swap_rays y)) with (r_xpr y).
  rewrite !doppler_swap, !array_swap.
  assert (AS : forall x y z w, cmul (cmul (cmul x y) z) w = cmul x (cmul (cmul y z) w)) by (intros; ring).
  rewrite !AS. set (k := cmul (cmul (array_offset _ _ _ _ _ _ _ _) _) _).
  unfold with_faraday. change (lt_bs_height (swap_topo T)) with (lt_bs_height T).
  rewrite (proj2 (Rleb_true 600000 (lt_bs_height T))) by exact Hh.
  unfold field_entry, cvec_of. cbn [swap_gen swap_topo cg_tx cg_rx cg_fc lt_tx_ori lt_rx_ori].
  rewrite E1, E2, E3, E4.
  destruct (omni_field (r_zod y c r) (r_aod y c r) 0) as (s1 & S1 & F1).
  destruct (omni_field (r_zoa y c r) (r_aoa y c r) 0) as (s2 & S2 & F2).
  rewrite !F1, !F2. exists (cmul k (creal (s1 * s2))). split.
  - intros P. rewrite cnorm2_mul, cnorm2_real.
    assert (K : cnorm2 k = nth c (r_powers y) 0 / INR rays_per_cluster).
    { unfold k. rewrite !cnorm2_mul. unfold array_offset, doppler. rewrite cnorm2_mul, !cexpi_norm.
      unfold cnorm2, creal. cbn [re im].
      rewrite <- (sqrt_sqrt (nth c (r_powers y) 0 / INR rays_per_cluster)) at 3; [ring|].
      apply Rlt_le, Rdiv_lt_0_compat; [exact P|unfold rays_per_cluster; cbn [INR]; lra]. }
    rewrite K. assert (0 < nth c (r_powers y) 0 / INR rays_per_cluster)
      by (apply Rdiv_lt_0_compat; [exact P|unfold rays_per_cluster; cbn [INR]; lra]).
    replace (s1 * s2 * (s1 * s2)) with ((s1 * s1) * (s2 * s2)) by ring. rewrite S1, S2. lra.
  - unfold phase_matrix, swap_phases, faraday_rotation. cbn. set (F := faraday_angle (cg_fc g)).
    set (q := sqrt (1 / r_xpr y c r)). destruct k as [kr ki]. unfold cmul, cadd, csub, creal, cexpi. cbn. f_equal; ring.
Qed.

Definition one_cross_phase (c r k : nat) : R := if Nat.eqb c 0 && (Nat.eqb r 0 && Nat.eqb k 2) then PI else 0.

Lemma total_first n f f' : (1 <= n)%nat -> (forall c r, (c, r) <> (0, 0)%nat -> f c r = f' c r) ->
  total n 20 f = cadd (total n 20 f') (csub (f 0%nat 0%nat) (f' 0%nat 0%nat)).
Proof.
  intros Hn H. destruct n as [|n]; [lia|]. unfold total.
  change (seq 0 (S n)) with (0%nat :: seq 1 n).
  change (list_prod (0%nat :: seq 1 n) (seq 0 20)) with
    ((0, 0)%nat :: map (fun y => (0%nat, y)) (seq 1 19) ++ list_prod (seq 1 n) (seq 0 20)).
  cbn [map csum fst snd].
  assert (E : map (fun cr => f (fst cr) (snd cr)) (map (fun y => (0%nat, y)) (seq 1 19) ++ list_prod (seq 1 n) (seq 0 20)) =
              map (fun cr => f' (fst cr) (snd cr)) (map (fun y => (0%nat, y)) (seq 1 19) ++ list_prod (seq 1 n) (seq 0 20))).
  { apply map_ext_in. intros [c r] I. apply H. intros Q. injection Q as -> ->. apply in_app_or in I. destruct I as [I|I].
    - apply in_map_iff in I. destruct I as (z & Z & I). injection Z as ->. apply in_seq in I. lia.
    - apply in_prod_iff in I. destruct I as [I _]. apply in_seq in I. lia. }
  rewrite E. unfold csum. cbn [fold_right]. ring.
Qed.

Lemma map_nth_error_ext {A B} (f : A -> B) (g : A -> B) l l' : length l = length l' ->
  (forall p, option_map f (nth_error l p) = option_map g (nth_error l' p)) -> map f l = map g l'.
Proof.
  revert l'. induction l as [|x l IH]; intros [|x' l'] E H; cbn in E; try discriminate; [reflexivity|].
  cbn. f_equal.
  - assert (Q := H 0%nat). cbn in Q. congruence.
  - apply IH; [congruence|]. intros p. exact (H (S p)).
Qed.

Lemma duality_refuted srt srtd sc : valid_argsort srt -> valid_argsort_desc srtd -> constructed sc -> sc_dir sc = "downlink" ->
  exists a z c1 fs d down up bs,
    chan_set_topology sc false (chan_init sc) a no_draws z = (c1, Ok tt) /\
    s_bs_loc (c_st c1) = Some bs /\ vz (t_at bs 0%nat 0%nat) = 600000 /\
    chan_call srt srtd sc omni_array omni_array false c1 fs d = Ok down /\
    chan_call srt srtd (with_direction "uplink" sc) omni_array omni_array false c1 fs (exchanged_phases d) = Ok up /\
    ~ (forall p, o_h up 0 0 0 0 0 p 0 = o_h down 0 0 0 0 0 p 0)%nat.
Proof.
  intros V VD Hc Hdir. assert (Ha := constructed_accepted sc Hc).
  set (a := one_ut (V3 600000 0 0) false (Some false)). set (z0 := fun _ _ _ _ : nat => 0).
  destruct (one_ut_call sc (V3 600000 0 0) false (Some false) no_draws Hc) as (st' & ST & U & B & I). fold a in ST.
  assert (OKz : snd (chan_set_topology sc false (chan_init sc) a no_draws z0) = Ok tt).
  { destruct (C68_l sc false (chan_init sc) a no_draws z0 st' Hc ST) as (ut & ind & los & A1 & _ & _ & Iff).
    apply Iff. assert (ut = t1 (V3 600000 0 0)) by congruence. subst ut. cbn [t1 t_num t_batch]. intros; lia. }
  assert (Ch : changes_topology a) by (left; discriminate).
  destruct (chan_set_topology sc false (chan_init sc) a no_draws z0) as [c1 r1] eqn:E1. cbn [snd] in OKz. subst r1.
  destruct (change_ok _ _ _ _ _ _ _ E1 Ch) as (ST1 & ut1 & bs1 & Cm & Sm & Lx & Ls & mask1 & B1 & B2 & B3 & B4 & B5 & B6 & B7 & _ & _ & B8 & B9).
  assert (ST1' : c_st c1 = st') by (change (channel_args a) with a in ST1; change (c_st (chan_init sc)) with (init_state sc) in ST1; congruence).
  rewrite ST1' in *. destruct (B9 eq_refl) as (lsps & L1 & L2).
  destruct (one_ut_los sc _ false _ st' Hc ST) as (los & LO1 & LO2).
  set (d := {| cd_lsp := z0; cd_rays := plain_draws (fun _ => / 2); cd_dir := fun _ => 0; cd_phase := fun _ _ _ => one_cross_phase |}).
  assert (CALL : exists out, chan_call srt srtd sc omni_array omni_array false c1 1e6 d = Ok out).
  { assert (S : settled sc false [SetTopology a no_draws z0] a no_draws z0).
    { exists [], []. split; [reflexivity|]. split; [exact Ch|]. split; [unfold chan_run; cbn [fold_left]; rewrite E1; reflexivity|intros ? ? ? []]. }
    destruct (call_defined srt srtd omni_array omni_array sc false _ _ _ _ 1e6 d Hc S) as [out O].
    exists out. cbn [chan_run fold_left chan_step] in O. rewrite E1 in O. exact O. }
  destruct CALL as [down O].
  assert (WD : with_direction "downlink" sc = sc) by (unfold with_direction; rewrite <- Hdir; destruct sc; reflexivity).
  assert (O' := O). rewrite <- WD in O'.
  destruct (chan_call_dir srt srtd omni_array omni_array sc "downlink" "uplink" false c1 1e6 d down O' (exchanged_phases d) eq_refl eq_refl) as [up UP].
  exists a, z0, c1, 1e6, d, down, up, (t1 (V3 0 0 600000)).
  split; [exact E1|]. split; [rewrite ST1'; exact B|]. split; [reflexivity|]. split; [exact O|]. split; [exact UP|].
  clear O'. intros EQ.
  destruct (C31_axes_l _ _ _ _ _ _ _ _ _ _ O) as (lsps' & mask' & rr & vel & uo & bo & bs & g & los' & ls & pl & D1 & D2 & D3 & D4 & D5 & D6 & D7 & D8 & D9 & D10 & D11 & D12 & D13).
  destruct (C31_axes_l _ _ _ _ _ _ _ _ _ _ UP) as (lsps2 & mask2 & rr2 & vel2 & uo2 & bo2 & bs2 & g2 & los2 & ls2 & pl2 & W1 & W2 & W3 & W4 & W5 & W6 & W7 & W8 & W9 & W10 & W11 & W12 & W13).
  rewrite ST1' in *. cbn [used_lsps] in D1, W1. cbn [exchanged_phases cd_rays] in W3.
  assert (lsps' = lsps) by congruence. assert (mask' = mask1) by congruence. assert (los' = los) by congruence. subst lsps' mask' los'.
  assert (lsps2 = lsps) by congruence. assert (mask2 = mask1) by congruence. assert (los2 = los) by congruence. subst lsps2 mask2 los2.
  assert (rr2 = rr) by congruence. assert (vel2 = vel) by congruence. assert (uo2 = uo) by congruence. assert (bo2 = bo) by congruence.
  assert (bs2 = bs) by congruence. assert (g2 = g) by congruence. assert (ls2 = ls) by congruence. subst rr2 vel2 uo2 bo2 bs2 g2 ls2.
  assert (bs = t1 (V3 0 0 600000)) by congruence. subst bs.
  assert (PE : sc_pathloss sc = true -> pl2 = pl) by (intros E; cbn [sc_pathloss with_direction] in *; specialize (D12 E); specialize (W12 E); congruence).
  assert (KK : los 0%nat 0%nat 0%nat = true -> Rpower 10 (- 6.3) <= l_k (lsps 0%nat 0%nat 0%nat)) by (rewrite LO2; discriminate).
  cbn [d cd_rays] in D3.
  destruct (C23_l _ _ _ _ _ _ srt lsps _ rr Hc ST B7 D3) as (los3 & ind3 & n1 & n2 & F1 & F2 & F3 & F4).
  assert (los3 = los) by congruence. subst los3. assert (ind3 = T 1 1 (fun _ _ => false)) by congruence. subst ind3.
  destruct (F4 0%nat 0%nat 0%nat eq_refl KK) as (y & Y & LP & _ & PW & _). rewrite LO2 in PW.
  destruct (C22_l _ _ _ _ _ _ srt lsps _ rr Hc ST B7 D3) as (los4 & m1 & m2 & G1 & G2 & G3).
  assert (los4 = los) by congruence. subst los4.
  destruct (G3 0%nat 0%nat 0%nat y Y KK) as (LD & _).
  assert (EM : m1 = n1 /\ m2 = n2).
  { assert (Q1 := documented_value_fun _ _ _ _ _ _ _ _ (F3 true) (G2 true)). assert (Q2 := documented_value_fun _ _ _ _ _ _ _ _ (F3 false) (G2 false)).
    injection Q1 as Q1. injection Q2 as Q2. apply INR_eq in Q1, Q2. auto. }
  destruct EM as [-> ->].
  assert (N2 : (2 <= n2)%nat).
  { destruct (C21_l _ _ _ _ _ Hc ST) as (los5 & ind5 & mask5 & H1 & H2 & H3 & H4).
    destruct (H4 0%nat 0%nat 0%nat) as [H5 _]. assert (ind5 = T 1 1 (fun _ _ => false)) by congruence. subst ind5.
    destruct (H5 eq_refl) as (n & Hn & Hb & _). assert (los5 = los) by congruence. subst los5. rewrite LO2 in Hn.
    assert (Q1 := documented_value_fun _ _ _ _ _ _ _ _ (F3 false) Hn). injection Q1 as Q1. apply INR_eq in Q1. lia. }
  destruct (xpr_l _ _ _ _ _ _ _ _ _ _ Hc ST B7 D3) as (los6 & _ & XP).
  destruct (XP _ _ _ _ Y) as (mu & sg & _ & _ & XQ). destruct (XQ 0%nat 0%nat) as [XPOS _].
  assert (UO : t_at uo 0%nat 0%nat = V3 0 0 0 /\ t_at bo 0%nat 0%nat = V3 0 0 0).
  { destruct (step_cases _ _ _ _ _ _ Ha ST) as [(_ & _ & [m Hm]) | (_ & _ & II & _)]; [discriminate|].
    destruct II as (_ & _ & I3 & I4 & _). cbn in I3, I4. assert (uo = t1 (V3 0 0 0)) by congruence. assert (bo = t1 (V3 0 0 0)) by congruence. subst. split; reflexivity. }
  destruct UO as [UO BO].
  specialize (D13 0%nat 0%nat 0%nat). specialize (W13 0%nat 0%nat 0%nat). cbv zeta in D13, W13. rewrite Y in D13, W13.
  change (down_link (with_direction "uplink" sc)) with (down_link sc) in W13.
  change (down_arrays (with_direction "uplink" sc)) with (down_arrays sc) in W13.
  change (cd_phase (exchanged_phases d) 0%nat 0%nat 0%nat) with (swap_phases one_cross_phase) in W13.
  change (cd_phase d 0%nat 0%nat 0%nat) with one_cross_phase in D13.
  cbn [cd_dir exchanged_phases d] in D13, W13. unfold link_coefficient, link_delay in D13, W13. rewrite Hdir in D13.
  cbn [sc_dir with_direction sc_pathloss sc_shadow] in W13.
  change (String.eqb "downlink" "uplink") with false in D13. change (String.eqb "uplink" "uplink") with true in W13. cbv iota in D13, W13.
  set (L := down_link sc st' vel uo bo (t1 (V3 0 0 600000)) g los (fun _ => 0) 0%nat 0%nat 0%nat) in *.
  set (G := down_arrays sc omni_array omni_array) in *.
  set (cDS := lp_cDS (ls_col ls (los 0%nat 0%nat 0%nat)) * 1e-9) in *.
  set (K := l_k (lsps 0%nat 0%nat 0%nat)) in *.
  assert (FE : (if sc_pathloss sc then Rpower 10 (- pl2 0%nat 0%nat 0%nat / 20) else 1) = (if sc_pathloss sc then Rpower 10 (- pl 0%nat 0%nat 0%nat / 20) else 1)).
  { destruct (sc_pathloss sc); [rewrite PE by reflexivity; reflexivity|reflexivity]. }
  rewrite FE in W13.
  set (x := (if sc_pathloss sc then Rpower 10 (- pl 0%nat 0%nat 0%nat / 20) else 1) * (if sc_shadow sc then sqrt (l_sf (lsps 0%nat 0%nat 0%nat)) else 1)) in *.
  assert (HX : 0 < x).
  { apply Rmult_lt_0_compat.
    - destruct (sc_pathloss sc); [apply exp_pos|lra].
    - destruct (sc_shadow sc); [|lra]. apply sqrt_lt_R0.
      unfold sample_lsp in L1. destruct (s_lsp st') as [l9|] eqn:EL9; [|discriminate]. injection L1 as <-. cbn [make_lsp l_sf].
      unfold lsp_value. destruct (ls_mean _ _ _ _ _) eqn:EE; [|apply pow10_pos].
      exfalso. destruct (make_ready _ _ _ _ _ Hc ST) as (ls9 & los9 & g9 & ind9 & bs9 & mask9 & RD).
      assert (X1 := rd_mean _ _ _ _ _ _ _ _ RD 0%nat 0%nat 0%nat 3%nat). assert (X2 := rd_ls _ _ _ _ _ _ _ _ RD).
      assert (ls9 = l9) by congruence. subst ls9. rewrite EE in X1. discriminate X1. }
  assert (LL : length (r_powers y) = length (r_delays y)) by congruence.
  assert (LN : (2 <= length (r_delays y))%nat) by lia.
  assert (QD := C28_l srt srtd G L K y 1e6 cDS one_cross_phase V VD eq_refl LO2 LL LN).
  assert (QU := C28_l srt srtd (swap_gen G) (swap_topo L) K (swap_rays y) 1e6 cDS (swap_phases one_cross_phase) V VD eq_refl LO2 LL LN).
  destruct (cir srt srtd G L K y 1e6 cDS one_cross_phase) as [hd dd].
  destruct (cir srt srtd (swap_gen G) (swap_topo L) K (swap_rays y) 1e6 cDS (swap_phases one_cross_phase)) as [hu du].
  cbn [fst snd] in D13, W13. cbv zeta in QD, QU. change (r_delays (swap_rays y)) with (r_delays y) in QU.
  destruct QD as (QD1 & _ & _ & QD2). destruct QU as (QU1 & _ & _ & QU2).
  assert (SAME : map (fun hk : coeff => hk 0%nat 0%nat 0%nat) hu = map (fun hk : coeff => hk 0%nat 0%nat 0%nat) hd).
  { apply map_nth_error_ext; [congruence|]. intros p.
    destruct (D13 0%nat 0%nat p 0%nat) as [_ DC]. destruct (W13 0%nat 0%nat p 0%nat) as [_ WC].
    assert (E := EQ p). rewrite DC, WC in E.
    destruct (option_map (fun h : coeff => h 0%nat 0%nat 0%nat) (nth_error hu p)) as [hx|];
    destruct (option_map (fun h : coeff => h 0%nat 0%nat 0%nat) (nth_error hd p)) as [hy|]; cbn in E; try discriminate; [|reflexivity].
    injection E as E E'. f_equal. destruct hx as [xr xi], hy as [yr yi]. cbn in E, E'. f_equal; nra. }
  destruct (QD2 0%nat 0%nat 0%nat) as [TD _]. destruct (QU2 0%nat 0%nat 0%nat) as [TU _].
  assert (TT := eq_trans (eq_sym TU) (eq_trans (f_equal csum SAME) TD)). clear TD. rename TT into TD.
  rewrite (total_first _ (fun c r => nlos_ray G L y (fun i => INR i / 1e6) one_cross_phase c r 0%nat 0%nat 0%nat)
     (fun c r => nlos_ray (swap_gen G) (swap_topo L) (swap_rays y) (fun i => INR i / 1e6) (swap_phases one_cross_phase) c r 0%nat 0%nat 0%nat)) in TD.
  2:{ lia. }
  2:{ intros c r NE. destruct (ray_exchange G L y (fun i => INR i / 1e6) one_cross_phase c r 0%nat eq_refl eq_refl BO UO (Rle_refl _)) as (k & _ & RE).
      rewrite RE. assert (CP : forall j, one_cross_phase c r j = 0).
      { intros j. unfold one_cross_phase. destruct (Nat.eqb_spec c 0); [|reflexivity]. destruct (Nat.eqb_spec r 0); [|reflexivity]. subst. exfalso. apply NE. reflexivity. }
      rewrite !CP. destruct k. unfold cadd, cmul, csub, creal. cbn. apply cplx_eq; cbn; ring. }
  destruct (ray_exchange G L y (fun i => INR i / 1e6) one_cross_phase 0%nat 0%nat 0%nat eq_refl eq_refl BO UO (Rle_refl _)) as (k & KN & RE).
  rewrite RE in TD.
  assert (S1 := faraday_sin _ (ac_band _ Ha)). change (cg_fc G) with (sc_fc sc) in TD.
  assert (S2 : 0 < sqrt (1 / r_xpr y 0%nat 0%nat)) by (apply sqrt_lt_R0, Rdiv_lt_0_compat; lra).
  set (q := sin (faraday_angle (sc_fc sc)) * sqrt (1 / r_xpr y 0%nat 0%nat)) in TD.
  assert (PQ : 0 < q) by (apply Rmult_lt_0_compat; assumption). clearbody q.
  apply KN; [destruct (PW 0%nat ltac:(lia)) as [P _]; exact P|].
  unfold one_cross_phase in TD. cbn [Nat.eqb andb] in TD.
  destruct (total _ 20 _) as [tr ti]. destruct (nlos_ray _ _ _ _ _ _ _ _ _ _) as [nr ni]. destruct k as [kr ki].
  unfold cadd, csub, cmul, creal, cexpi in TD. cbn in TD. rewrite cos_0, sin_0, cos_PI, sin_PI in TD. injection TD as T1 T2.
  assert (kr * q = 0) by lra. assert (ki * q = 0) by lra. unfold cnorm2. cbn [re im].
  assert (kr = 0) by nra. assert (ki = 0) by nra. subst. ring.
Qed.

(* C66 from 600 km on, for all antennas: the exchange moves the rotation to the other end *)
Lemma exchange_law g T y time ph c r u s t : 600000 <= lt_bs_height T ->
  let a := 108 / sq (cg_fc g / 1e9) / 180 * PI in
  let turned f := (cos a * fst f - sin a * snd f, sin a * fst f + cos a * snd f) in
  let rx := antenna_field (cg_rx g) (lt_rx_ori T) (r_zoa y c r) (r_aoa y c r) u in
  let tx := antenna_field (cg_tx g) (lt_tx_ori T) (r_zod y c r) (r_aod y c r) s in
  let M := phase_matrix (r_xpr y c r) (ph c r) in
  let through f f' :=
    cadd (cmul (creal (fst f)) (cadd (cmul (m00 M) (creal (fst f'))) (cmul (m01 M) (creal (snd f')))))
         (cmul (creal (snd f)) (cadd (cmul (m10 M) (creal (fst f'))) (cmul (m11 M) (creal (snd f'))))) in
  exists k, cnorm2 k = cnorm2 (creal (sqrt (nth c (r_powers y) 0 / 20))) /\
    nlos_ray g T y time ph c r u s t = cmul k (through rx (turned tx)) /\
    nlos_ray (swap_gen g) (swap_topo T) (swap_rays y) time (swap_phases ph) c r s u t = cmul k (through (turned rx) tx).
Proof.
  intros Hh. cbv zeta.
  assert (FA : faraday_angle (cg_fc g) = 108 / sq (cg_fc g / 1e9) / 180 * PI) by (unfold faraday_angle, sq, Rdiv; ring).
  rewrite <- FA. clear FA. unfold nlos_ray. cbv zeta.
  change (r_aoa (swap_rays y)) with (r_aod y). change (r_aod (swap_rays y)) with (r_aoa y).
  change (r_zoa (swap_rays y)) with (r_zod y). change (r_zod (swap_rays y)) with (r_zoa y).
  change (r_powers (swap_rays y)) with (r_powers y). change (r_xpr (swap_rays y)) with (r_xpr y).
  rewrite !doppler_swap, !array_swap.
  assert (AS : forall x y z w, cmul (cmul (cmul x y) z) w = cmul x (cmul (cmul y z) w)) by (intros; ring).
  rewrite !AS. set (k := cmul (cmul (array_offset _ _ _ _ _ _ _ _) _) _).
  exists k. split.
  { unfold k. rewrite !cnorm2_mul. unfold array_offset, doppler. rewrite cnorm2_mul, !cexpi_norm.
    replace (INR rays_per_cluster) with 20 by (unfold rays_per_cluster; cbn [INR]; lra). ring. }
  unfold with_faraday. change (lt_bs_height (swap_topo T)) with (lt_bs_height T).
  rewrite (proj2 (Rleb_true 600000 (lt_bs_height T))) by exact Hh.
  unfold field_entry, cvec_of. cbn [swap_gen swap_topo cg_tx cg_rx cg_fc lt_tx_ori lt_rx_ori].
  destruct (antenna_field (cg_rx g) _ _ _ _) as [f1 f2]. destruct (antenna_field (cg_tx g) _ _ _ _) as [h1 h2].
  cbn [fst snd]. unfold phase_matrix, swap_phases, faraday_rotation. cbn.
  destruct k as [kr ki]. set (F := faraday_angle (cg_fc g)). set (q := sqrt (1 / r_xpr y c r)).
  unfold cmul, cadd, creal, cexpi. cbn. split; f_equal; ring.
Qed.

Lemma downlink_example : exists sc T, constructed sc /\ sc_dir sc = "downlink" /\ 600000 <= lt_bs_height T.
Proof.
  destruct example_constructed as (sc & Hc & _ & _ & Hd & _). exists sc, ex_topo.
  split; [exact Hc|]. split; [exact Hd|]. cbn. lra.
Qed.
