(* Output of a channel call, link by link. *)
From Coq Require Import Reals String List Bool Arith Lia Lra ZArith QArith Qreals Permutation Sorting.Sorted.
From Verif Require Import M_Base L_Base M_Params S_Config L_Params L_Config M_Geometry M_Pathloss M_Scenario
  M_Lsp S_Linear L_Linear S_Lsp S_Topology L_Pathloss L_Trig L_Geometry L_Scenario L_Fresh L_Topology L_Corr L_Lsp
  S_Pathloss L_Loss M_Rays S_Rays L_Rays L_RaysEx M_Antenna M_Cplx M_Coeff S_Coeff L_Rotation L_Coeff M_Channel S_Channel L_Chol L_Channel.
Import ListNotations.
Open Scope string_scope.
Open Scope list_scope.
Open Scope R_scope.

(* ---- C31: every index of the output belongs to the right link ---- *)
Definition used_lsps (always : bool) (c : chan) (d : call_draws) (lsps : grid lsp) : Prop :=
  if always then lsp_sampler c (cd_lsp d) = Ok lsps else c_lsp c = Some lsps.

Lemma C31_axes_l srt srtd ua ba sc always c fs d out :
  chan_call srt srtd sc ua ba always c fs d = Ok out ->
  exists lsps mask rr vel uo bo bs g los ls pl,
    used_lsps always c d lsps /\ c_mask c = Some mask /\ gen_rays srt (c_st c) mask lsps (cd_rays d) = Ok rr /\
    s_ut_vel (c_st c) = Some vel /\ s_ut_ori (c_st c) = Some uo /\ s_bs_ori (c_st c) = Some bo /\
    s_bs_loc (c_st c) = Some bs /\ s_geo (c_st c) = Some g /\ s_los (c_st c) = Some los /\ s_lsp (c_st c) = Some ls /\
    t_num bs = 1%nat /\ (sc_pathloss sc = true -> sample_pathloss (c_st c) = Ok pl) /\
    forall b s u,
      let L := down_link sc (c_st c) vel uo bo bs g los (cd_dir d) b s u in
      let G := down_arrays sc ua ba in
      let K := l_k (lsps b s u) in
      let cDS := lp_cDS (ls_col ls (los b s u)) * 1e-9 in
      let factor := (if sc_pathloss sc then Rpower 10 (- pl b s u / 20) else 1)
                    * (if sc_shadow sc then sqrt (l_sf (lsps b s u)) else 1) in
      match rr b s u with
      | None => forall is iu p t, link_coefficient (sc_dir sc) out b s is u iu p t = None /\
                                  link_delay (sc_dir sc) out b s u p = None
      | Some y =>
          let down := cir srt srtd G L K y fs cDS (cd_phase d b s u) in
          let up := cir srt srtd (swap_gen G) (swap_topo L) K (swap_rays y) fs cDS (cd_phase d b u s) in
          forall is iu p t,
            link_delay (sc_dir sc) out b s u p = nth_error (snd (if String.eqb (sc_dir sc) "uplink" then up else down)) p /\
            link_coefficient (sc_dir sc) out b s is u iu p t =
              option_map (fun x => cmul x (creal factor))
                (if String.eqb (sc_dir sc) "uplink" then option_map (fun h : coeff => h is iu t) (nth_error (fst up) p)
                 else option_map (fun h : coeff => h iu is t) (nth_error (fst down) p))
      end.
Proof.
  unfold chan_call. intros H.
  destruct (if always then lsp_sampler c (cd_lsp d)
           else match c_lsp c with Some l => Ok l | None => Err (AttributeError "_lsp") end) as [lsps|] eqn:EL; cbn [bind] in H; [|discriminate].
  destruct (c_mask c) as [mask|] eqn:EM; cbn [bind] in H; [|discriminate].
  destruct (gen_rays srt (c_st c) mask lsps (cd_rays d)) as [rr|] eqn:ER; cbn [bind] in H; [|discriminate].
  destruct (s_ut_vel (c_st c)) as [vel|] eqn:E1; [|discriminate].
  destruct (s_ut_ori (c_st c)) as [uo|] eqn:E2; [|discriminate].
  destruct (s_bs_ori (c_st c)) as [bo|] eqn:E3; [|discriminate].
  destruct (s_bs_loc (c_st c)) as [bs|] eqn:E4; [|discriminate].
  destruct (s_geo (c_st c)) as [g|] eqn:E5; [|discriminate].
  destruct (s_los (c_st c)) as [los|] eqn:E6; [|discriminate].
  destruct (s_lsp (c_st c)) as [ls|] eqn:E7; [|discriminate].
  destruct (Nat.eqb (t_num bs) 1) eqn:E8; cbn [negb] in H; [|discriminate]. apply Nat.eqb_eq in E8.
  assert (UL : used_lsps always c d lsps).
  { unfold used_lsps. destruct always; [exact EL|]. destruct (c_lsp c); congruence. }
  assert (PL : exists pl, (sc_pathloss sc = true -> sample_pathloss (c_st c) = Ok pl) /\
     (if sc_pathloss sc
      then p <- sample_pathloss (c_st c);; Ok (if String.eqb (sc_dir sc) "uplink" then transpose p else p)
      else Ok (fun _ _ _ : nat => 0)) =
     Ok (if sc_pathloss sc then (if String.eqb (sc_dir sc) "uplink" then transpose pl else pl) else (fun _ _ _ => 0))).
  { destruct (sc_pathloss sc).
    - destruct (sample_pathloss (c_st c)) as [p|]; [|discriminate]. exists p. split; reflexivity.
    - exists (fun _ _ _ => 0). split; [discriminate|reflexivity]. }
  destruct PL as (pl & PL1 & PL2). rewrite PL2 in H. cbn [bind] in H. injection H as <-.
  exists lsps, mask, rr, vel, uo, bo, bs, g, los, ls, pl. repeat (split; [assumption || exact eq_refl|]).
  intros b s u. cbv zeta.
  assert (F : forall b' i j, pow10 (- (if sc_pathloss sc
                          then if String.eqb (sc_dir sc) "uplink" then transpose pl else pl
                          else fun _ _ _ : nat => 0) b' i j / 20) *
              sqrt ((if sc_shadow sc then if String.eqb (sc_dir sc) "uplink"
                         then transpose (fun b s u => l_sf (lsps b s u)) else (fun b s u => l_sf (lsps b s u))
                     else fun _ _ _ => 1) b' i j) =
          let s := if String.eqb (sc_dir sc) "uplink" then j else i in
          let u := if String.eqb (sc_dir sc) "uplink" then i else j in
          (if sc_pathloss sc then Rpower 10 (- pl b' s u / 20) else 1)
                    * (if sc_shadow sc then sqrt (l_sf (lsps b' s u)) else 1)).
  { intros b' i j. cbv zeta. unfold pow10, transpose.
    destruct (sc_pathloss sc), (sc_shadow sc), (String.eqb (sc_dir sc) "uplink"); try reflexivity;
      rewrite ?sqrt_1; try reflexivity; replace (-0 / 20) with 0 by lra; rewrite Rpower_O by lra; reflexivity. }
  unfold link_coefficient, link_delay.
  destruct (rr b s u) as [y|] eqn:EY.
  - intros is iu p t. cbn [o_h o_delays]. rewrite !F. cbv zeta.
    destruct (String.eqb (sc_dir sc) "uplink") eqn:ED.
    + unfold option_map_grid, transpose. rewrite EY. cbn [option_map].
      change (uplink_rays y) with (swap_rays y).
      match goal with |- context [match cir srt srtd ?G ?T ?K ?Y ?f ?cd ?ph with _ => _ end] =>
        change G with (swap_gen (down_arrays sc ua ba));
        change T with (swap_topo (down_link sc (c_st c) vel uo bo bs g los (cd_dir d) b s u)) end.
      destruct (cir srt srtd (swap_gen (down_arrays sc ua ba)) (swap_topo (down_link sc (c_st c) vel uo bo bs g los (cd_dir d) b s u)) (l_k (lsps b s u))
          (swap_rays y) fs (lp_cDS (ls_col ls (los b s u)) * 1e-9) (cd_phase d b u s)) as [h dl].
      cbn [fst snd]. split; [reflexivity|]. destruct (nth_error h p); reflexivity.
    + rewrite EY. cbn [option_map].
      match goal with |- context [match cir srt srtd ?G ?T ?K ?Y ?f ?cd ?ph with _ => _ end] =>
        change G with (down_arrays sc ua ba);
        change T with (down_link sc (c_st c) vel uo bo bs g los (cd_dir d) b s u) end.
      destruct (cir srt srtd (down_arrays sc ua ba) (down_link sc (c_st c) vel uo bo bs g los (cd_dir d) b s u) (l_k (lsps b s u))
          y fs (lp_cDS (ls_col ls (los b s u)) * 1e-9) (cd_phase d b s u)) as [h dl].
      cbn [fst snd]. split; [reflexivity|]. destruct (nth_error h p); reflexivity.
  - intros is iu p t. cbn [o_h o_delays].
    destruct (String.eqb (sc_dir sc) "uplink") eqn:ED; unfold option_map_grid, transpose; rewrite EY; split; reflexivity.
Qed.

(* ---- C31: duality of the two directions ---- *)
Definition flip (h : coeff) : coeff := fun u s t => h s u t.

Lemma map_flip_sums h ind l : map (sum_rays (fun c r => flip (h c r)) ind) l = map flip (map (sum_rays h ind) l).
Proof. rewrite map_map. apply map_ext. reflexivity. Qed.

Lemma reduce_flip srt srtd sub h powers delays cds :
  reduce_nlos srt srtd sub (fun c r => flip (h c r)) powers delays cds =
  (map flip (fst (reduce_nlos srt srtd sub h powers delays cds)), snd (reduce_nlos srt srtd sub h powers delays cds)).
Proof.
  unfold reduce_nlos. destruct sub.
  - rewrite !map_flip_sums, <- !map_app. cbn [fst snd]. f_equal. rewrite map_map. apply map_ext. intros k.
    apply (map_nth flip).
  - rewrite map_flip_sums. cbn [fst snd]. f_equal. etransitivity; [|symmetry; apply map_map]. apply map_ext. intros k. apply (map_nth flip).
Qed.

Lemma combine_flip k h l : combine_los k (flip h) (map flip l) = map flip (combine_los k h l).
Proof.
  unfold combine_los. rewrite map_map. destruct l as [|x l]; [reflexivity|]. cbn [map]. f_equal.
  rewrite !map_map. reflexivity.
Qed.

Lemma cir_swap srt srtd g T k y fs cds ph : lt_bs_height T < 600000 ->
  cir srt srtd (swap_gen g) (swap_topo T) k (swap_rays y) fs cds (swap_phases ph) =
  (map flip (fst (cir srt srtd g T k y fs cds ph)), snd (cir srt srtd g T k y fs cds ph)).
Proof.
  intros H. unfold cir, step_11.
  assert (E : nlos_ray (swap_gen g) (swap_topo T) (swap_rays y) (fun i => INR i / fs) (swap_phases ph) =
     (fun c r => flip (nlos_ray g T y (fun i => INR i / fs) ph c r))).
  { apply FunctionalExtensionality.functional_extensionality; intros c. apply FunctionalExtensionality.functional_extensionality; intros r.
    apply FunctionalExtensionality.functional_extensionality; intros u. apply FunctionalExtensionality.functional_extensionality; intros s.
    apply FunctionalExtensionality.functional_extensionality; intros t.
    exact (proj1 (C66_l g T y (fun i => INR i / fs) ph c r s u t H)). }
  assert (E' : los_ray (swap_gen g) (swap_topo T) (fun i => INR i / fs) = flip (los_ray g T (fun i => INR i / fs))).
  { apply FunctionalExtensionality.functional_extensionality; intros u. apply FunctionalExtensionality.functional_extensionality; intros s.
    apply FunctionalExtensionality.functional_extensionality; intros t.
    exact (proj2 (C66_l g T y (fun i => INR i / fs) ph 0%nat 0%nat s u t H)). }
  rewrite E, E'. change (cg_sub (swap_gen g)) with (cg_sub g). change (r_powers (swap_rays y)) with (r_powers y).
  change (r_delays (swap_rays y)) with (r_delays y). change (lt_los (swap_topo T)) with (lt_los T).
  rewrite reduce_flip.
  destruct (reduce_nlos srt srtd (cg_sub g) (nlos_ray g T y (fun i => INR i / fs) ph) (r_powers y) (r_delays y) cds) as [h dl].
  cbn [fst snd]. destruct (lt_los T); [rewrite combine_flip; reflexivity|reflexivity].
Qed.

Lemma chan_call_dir srt srtd ua ba sc dir dir' always c fs d out :
  chan_call srt srtd (with_direction dir sc) ua ba always c fs d = Ok out ->
  forall d', cd_lsp d' = cd_lsp d -> cd_rays d' = cd_rays d ->
  exists out', chan_call srt srtd (with_direction dir' sc) ua ba always c fs d' = Ok out'.
Proof.
  unfold chan_call. cbn [sc_pathloss sc_shadow sc_dir with_direction]. intros H d' -> ->.
  destruct (if always then lsp_sampler c (cd_lsp d)
           else match c_lsp c with Some l => Ok l | None => Err (AttributeError "_lsp") end) as [lsps|]; cbn [bind] in *; [|discriminate].
  destruct (c_mask c) as [mask|]; cbn [bind] in *; [|discriminate].
  destruct (gen_rays srt (c_st c) mask lsps (cd_rays d)) as [rr|]; cbn [bind] in *; [|discriminate].
  destruct (s_ut_vel (c_st c)) as [vel|]; [|discriminate].
  destruct (s_ut_ori (c_st c)) as [uo|]; [|discriminate].
  destruct (s_bs_ori (c_st c)) as [bo|]; [|discriminate].
  destruct (s_bs_loc (c_st c)) as [bs|]; [|discriminate].
  destruct (s_geo (c_st c)) as [g|]; [|discriminate].
  destruct (s_los (c_st c)) as [los|]; [|discriminate].
  destruct (s_lsp (c_st c)) as [ls|]; [|discriminate].
  destruct (Nat.eqb (t_num bs) 1); cbn [negb] in *; [|discriminate].
  destruct (sc_pathloss sc); cbn [bind] in *; [|eauto].
  destruct (sample_pathloss (c_st c)); cbn [bind] in *; [eauto|discriminate].
Qed.

Lemma C31_duality_l srt srtd ua ba sc always c fs d down bs :
  chan_call srt srtd (with_direction "downlink" sc) ua ba always c fs d = Ok down ->
  s_bs_loc (c_st c) = Some bs -> vz (t_at bs 0%nat 0%nat) < 600000 ->
  exists up, chan_call srt srtd (with_direction "uplink" sc) ua ba always c fs (exchanged_phases d) = Ok up /\
  forall b s is u iu p t,
    o_h up b s is u iu p t = o_h down b u iu s is p t /\ o_delays up b s u p = o_delays down b u s p.
Proof.
  intros H B Hh. destruct (chan_call_dir srt srtd ua ba sc "downlink" "uplink" always c fs d down H (exchanged_phases d) eq_refl eq_refl) as [up U].
  exists up. split; [exact U|]. intros b s is u iu p t.
  destruct (C31_axes_l _ _ _ _ _ _ _ _ _ _ H) as (lsps & mask & rr & vel & uo & bo & bs1 & g & los & ls & pl & A1 & A2 & A3 & A4 & A5 & A6 & A7 & A8 & A9 & A10 & A11 & A12 & A13).
  destruct (C31_axes_l _ _ _ _ _ _ _ _ _ _ U) as (lsps' & mask' & rr' & vel' & uo' & bo' & bs' & g' & los' & ls' & pl' & B1 & B2 & B3 & B4 & B5 & B6 & B7 & B8 & B9 & B10 & B11 & B12 & B13).
  assert (lsps' = lsps) by (unfold used_lsps in *; destruct always; cbn [exchanged_phases cd_lsp] in *; congruence). subst lsps'.
  assert (mask' = mask) by congruence. subst mask'.
  assert (rr' = rr) by (cbn [exchanged_phases cd_rays] in *; congruence). subst rr'.
  assert (vel' = vel) by congruence. assert (uo' = uo) by congruence. assert (bo' = bo) by congruence. assert (bs' = bs) by congruence.
  assert (bs1 = bs) by congruence.
  assert (g' = g) by congruence. assert (los' = los) by congruence. assert (ls' = ls) by congruence. subst vel' uo' bo' bs' bs1 g' los' ls'.
  assert (PE : sc_pathloss sc = true -> pl' = pl) by (intros E; cbn [sc_pathloss with_direction] in *; specialize (A12 E); specialize (B12 E); congruence).
  specialize (A13 b s u). specialize (B13 b s u). cbv zeta in A13, B13.
  change (down_link (with_direction "uplink" sc)) with (down_link (with_direction "downlink" sc)) in B13.
  change (down_arrays (with_direction "uplink" sc)) with (down_arrays (with_direction "downlink" sc)) in B13.
  change (cd_phase (exchanged_phases d) b u s) with (swap_phases (cd_phase d b s u)) in B13.
  cbn [cd_dir exchanged_phases] in B13. unfold link_coefficient, link_delay in A13, B13.
  cbn [sc_dir with_direction sc_pathloss sc_shadow] in A13, B13.
  change (String.eqb "downlink" "uplink") with false in A13. change (String.eqb "uplink" "uplink") with true in B13. cbv iota in A13, B13.
  destruct (rr b s u) as [y|].
  - destruct (A13 is iu p t) as [AD AC]. destruct (B13 is iu p t) as [BD BC]. rewrite AD, AC, BD, BC.
    rewrite cir_swap by exact Hh. cbn [fst snd]. split; [|reflexivity].
    rewrite nth_error_map.
    assert (FE : (if sc_pathloss sc then Rpower 10 (- pl' b s u / 20) else 1) = (if sc_pathloss sc then Rpower 10 (- pl b s u / 20) else 1)).
    { destruct (sc_pathloss sc); [rewrite PE by reflexivity; reflexivity|reflexivity]. }
    rewrite FE. destruct (nth_error (fst _) p); reflexivity.
  - destruct (A13 is iu p t) as [AD AC]. destruct (B13 is iu p t) as [BD BC]. rewrite AD, AC, BD, BC. split; reflexivity.
Qed.

(* ---- C32 ---- *)
Lemma C32_l srt srtd ua ba sc p f always c fs d out :
  chan_call srt srtd (with_switches p f sc) ua ba always c fs d = Ok out ->
  exists out0 lsps pl,
    chan_call srt srtd (with_switches false false sc) ua ba always c fs d = Ok out0 /\
    (if always then lsp_sampler c (cd_lsp d) = Ok lsps else c_lsp c = Some lsps) /\
    (p = true -> sample_pathloss (c_st c) = Ok pl) /\
    forall b s u, exists x : R,
      x = (if p then Rpower 10 (- pl b s u / 20) else 1) * (if f then sqrt (l_sf (lsps b s u)) else 1) /\
      (p = false -> f = false -> x = 1) /\
      forall is iu q t,
        link_coefficient (sc_dir sc) out b s is u iu q t =
          option_map (fun h => cmul h (creal x)) (link_coefficient (sc_dir sc) out0 b s is u iu q t) /\
        link_delay (sc_dir sc) out b s u q = link_delay (sc_dir sc) out0 b s u q.
Proof.
  intros H.
  assert (H0 : exists out0, chan_call srt srtd (with_switches false false sc) ua ba always c fs d = Ok out0).
  { revert H. unfold chan_call. cbn [sc_pathloss sc_shadow sc_dir with_switches]. intros H.
    destruct (if always then lsp_sampler c (cd_lsp d)
           else match c_lsp c with Some l => Ok l | None => Err (AttributeError "_lsp") end) as [lsps|]; cbn [bind] in *; [|discriminate].
    destruct (c_mask c) as [mask|]; cbn [bind] in *; [|discriminate].
    destruct (gen_rays srt (c_st c) mask lsps (cd_rays d)) as [rr|]; cbn [bind] in *; [|discriminate].
    destruct (s_ut_vel (c_st c)) as [vel|]; [|discriminate].
    destruct (s_ut_ori (c_st c)) as [uo|]; [|discriminate].
    destruct (s_bs_ori (c_st c)) as [bo|]; [|discriminate].
    destruct (s_bs_loc (c_st c)) as [bs|]; [|discriminate].
    destruct (s_geo (c_st c)) as [g|]; [|discriminate].
    destruct (s_los (c_st c)) as [los|]; [|discriminate].
    destruct (s_lsp (c_st c)) as [ls|]; [|discriminate].
    destruct (Nat.eqb (t_num bs) 1); cbn [negb] in *; [|discriminate]. eauto. }
  destruct H0 as [out0 H0].
  destruct (C31_axes_l _ _ _ _ _ _ _ _ _ _ H) as (lsps & mask & rr & vel & uo & bo & bs & g & los & ls & pl & A1 & A2 & A3 & A4 & A5 & A6 & A7 & A8 & A9 & A10 & A11 & A12 & A13).
  destruct (C31_axes_l _ _ _ _ _ _ _ _ _ _ H0) as (lsps' & mask' & rr' & vel' & uo' & bo' & bs' & g' & los' & ls' & pl' & B1 & B2 & B3 & B4 & B5 & B6 & B7 & B8 & B9 & B10 & B11 & B12 & B13).
  assert (lsps' = lsps) by (unfold used_lsps in *; destruct always; congruence). subst lsps'.
  assert (mask' = mask) by congruence. subst mask'.
  assert (rr' = rr) by congruence. subst rr'.
  assert (vel' = vel) by congruence. assert (uo' = uo) by congruence. assert (bo' = bo) by congruence. assert (bs' = bs) by congruence.
  assert (g' = g) by congruence. assert (los' = los) by congruence. assert (ls' = ls) by congruence. subst vel' uo' bo' bs' g' los' ls'.
  exists out0, lsps, pl. split; [exact H0|]. split; [exact A1|]. split; [exact A12|]. intros b s u.
  eexists. split; [reflexivity|]. split; [intros -> ->; ring|]. intros is iu q t.
  specialize (A13 b s u). specialize (B13 b s u). cbv zeta in A13, B13.
  cbn [sc_dir with_switches sc_pathloss sc_shadow] in A13, B13.
  change (down_link (with_switches false false sc)) with (down_link (with_switches p f sc)) in B13.
  change (down_arrays (with_switches false false sc)) with (down_arrays (with_switches p f sc)) in B13.
  destruct (rr b s u) as [y|].
  - destruct (A13 is iu q t) as [AD AC]. destruct (B13 is iu q t) as [BD BC]. rewrite AD, AC, BD, BC. split; [|reflexivity].
    assert (R1 : forall h : cplx, cmul h (creal (1 * 1)) = h).
    { intros h. replace (creal (1 * 1)) with c1 by (apply cplx_eq; cbn; lra). ring. }
    match goal with |- option_map _ ?z = _ => destruct z as [h|]; cbn [option_map]; [rewrite R1; reflexivity|reflexivity] end.
  - destruct (A13 is iu q t) as [AD AC]. destruct (B13 is iu q t) as [BD BC]. rewrite AD, AC, BD, BC. split; reflexivity.
Qed.

(* ---- C33: what the switch removes ---- *)
Lemma C33_partial_l srt srtd ua ba sc c fs d f : sc_shadow sc = false ->
  chan_call srt srtd sc ua ba false (with_sf f c) fs d = chan_call srt srtd sc ua ba false c fs d.
Proof.
  intros H. unfold chan_call. rewrite H. cbn [c_lsp with_sf c_st c_mask].
  destruct (c_lsp c) as [l|]; cbn [option_map bind]; [|reflexivity]. reflexivity.
Qed.

(* ---- C33: the shadow fading the switch does not remove ---- *)
Definition with_pl (p : plosses) (st : state) : state :=
  {| s_ut_loc := s_ut_loc st; s_bs_loc := s_bs_loc st; s_ut_ori := s_ut_ori st; s_bs_ori := s_bs_ori st;
     s_ut_vel := s_ut_vel st; s_in := s_in st; s_req_los := s_req_los st; s_weather := s_weather st;
     s_doppler := s_doppler st; s_d2d := s_d2d st; s_geo := s_geo st; s_ind := s_ind st; s_los := s_los st;
     s_lsp := s_lsp st; s_pl := Some p |}.
Definition chan_with_pl (p : plosses) (c : chan) : chan :=
  {| c_st := with_pl p (c_st c); c_cross := c_cross c; c_spatial := c_spatial c; c_mask := c_mask c; c_lsp := c_lsp c |}.

Lemma sf_draws_scenario sc st a dr zl zn st1 : set_topology sc st a dr = (st1, Ok true) ->
  exists p, set_topology sc st a (with_sf_draws zl zn dr) = (with_pl p st1, Ok true).
Proof.
  intros H. destruct (complete_call st a) eqn:C.
  2:{ destruct (set_topology_incomplete sc st a dr C) as (m & E). rewrite H in E. discriminate. }
  destruct (set_topology_complete sc st a dr C) as (ut & bs & ind & E1 & E2 & E3 & E).
  destruct (set_topology_complete sc st a (with_sf_draws zl zn dr) C) as (ut' & bs' & ind' & E1' & E2' & E3' & E').
  assert (ut' = ut) by congruence. assert (bs' = bs) by congruence. assert (ind' = ind) by congruence. subst ut' bs' ind'.
  rewrite H in E. rewrite E'. destruct (need_for_update a); [|discriminate].
  unfold update_topology in E |- *. cbn [dr_indoor dr_los dr_z_los dr_z_nlos with_sf_draws].
  destruct (distance_2d ut bs); [|discriminate]. destruct (distance_3d_and_angles _ ut bs); [|discriminate].
  destruct (sample_indoor _ _ _ _ _); [|discriminate]. destruct (pv <- los_probability sc;; num_of pv); [|discriminate].
  destruct (compute_lsp_stat _ _ _); [|discriminate].
  unfold compute_pathlosses in E |- *.
  destruct (clutter_loss sc) as [clv|]; cbn [bind] in *; [|discriminate]. destruct (num_of clv); cbn [bind] in *; [|discriminate].
  destruct (sigma_sf_los sc) as [slv|]; cbn [bind] in *; [|discriminate]. destruct (num_of slv); cbn [bind] in *; [|discriminate].
  destruct (sigma_sf_nlos sc) as [snv|]; cbn [bind] in *; [|discriminate]. destruct (num_of snv); cbn [bind] in *; [|discriminate].
  eexists. injection E as ->. reflexivity.
Qed.

Lemma sf_draws_channel sc al c a dr z zl zn c1 : changes_topology a -> chan_set_topology sc al c a dr z = (c1, Ok tt) ->
  exists p, chan_set_topology sc al c a (with_sf_draws zl zn dr) z = (chan_with_pl p c1, Ok tt) /\
    set_topology sc (c_st c) (channel_args a) (with_sf_draws zl zn dr) = (with_pl p (c_st c1), Ok true).
Proof.
  intros Ch H. destruct (change_ok sc al c a dr z c1 H Ch) as (H1 & _).
  destruct (sf_draws_scenario _ _ _ _ zl zn _ H1) as (p & H2). exists p. split; [|exact H2].
  unfold chan_set_topology in H |- *. rewrite H1 in H. rewrite H2.
  change (sizes (with_pl p (c_st c1))) with (sizes (c_st c1)).
  change (cross_matrix (with_pl p (c_st c1))) with (cross_matrix (c_st c1)).
  change (spatial_matrix (with_pl p (c_st c1))) with (spatial_matrix (c_st c1)).
  change (compute_clusters_mask (with_pl p (c_st c1))) with (compute_clusters_mask (c_st c1)).
  destruct (sizes (c_st c1)) as [[nb ns] nu].
  destruct (m <- cross_matrix (c_st c1);; cholesky_all nb ns nu 7 m) as [Lx|]; [|discriminate].
  destruct (m <- spatial_matrix (c_st c1);; cholesky_all nb ns 7 nu m) as [Ls|]; [|discriminate].
  destruct (compute_clusters_mask (c_st c1)) as [mask|]; [|discriminate].
  destruct al; [injection H as <-; reflexivity|].
  change (lsp_sampler (with_mask (with_spatial (with_cross (with_state c (with_pl p (c_st c1))) Lx) Ls) mask) z)
    with (lsp_sampler (with_mask (with_spatial (with_cross (with_state c (c_st c1)) Lx) Ls) mask) z).
  destruct (lsp_sampler _ z) as [l|]; [|discriminate]. injection H as <-. reflexivity.
Qed.

Lemma sigmaSF_values : for_cols (fun e ul sb los c => negb (Qle_bool (qlook e ul sb los c "sigmaSF") 0)) = true.
Proof. vm_compute. reflexivity. Qed.

Lemma sigmaSF_pos sc los s : accepted sc ->
  documented_value (sc_env sc) (sc_fc sc) (sc_dir sc) (sc_elev sc) los "sigmaSF" (Fin s) -> 0 < s.
Proof.
  intros Ha D. rewrite (doc_qlook sc los "sigmaSF" s Ha) by (try exact D; cbn; tauto).
  assert (F := for_cols_spec _ sigmaSF_values (sc_env sc) (dir_ul (sc_dir sc)) (is_s_band (sc_fc sc)) los (angle_col (sc_elev sc))
    (angle_col_in _ (ac_elev _ Ha))). cbv beta in F. apply negb_true_iff in F.
  replace 0 with (Q2R 0) by (unfold Q2R; cbn; lra). apply Qlt_Rlt.
  destruct (Qlt_le_dec 0 (qlook (sc_env sc) (dir_ul (sc_dir sc)) (is_s_band (sc_fc sc)) los (angle_col (sc_elev sc)) "sigmaSF")) as [X | X]; [exact X|].
  apply Qle_bool_iff in X. congruence.
Qed.

Lemma switches_eta sc p f : sc_pathloss sc = p -> sc_shadow sc = f -> sc = with_switches p f sc.
Proof. destruct sc; cbn. intros -> ->. reflexivity. Qed.

Lemma C33_hidden_l srt srtd ua ba sc al c a dr z c1 fs d o1 : constructed sc ->
  sc_pathloss sc = true -> sc_shadow sc = false -> changes_topology a ->
  chan_set_topology sc al c a dr z = (c1, Ok tt) -> chan_call srt srtd sc ua ba al c1 fs d = Ok o1 ->
  forall zl zn, exists c2 o2 los sl sn,
    chan_set_topology sc al c a (with_sf_draws zl zn dr) z = (c2, Ok tt) /\ chan_call srt srtd sc ua ba al c2 fs d = Ok o2 /\
    s_los (c_st c1) = Some los /\
    (let doc := documented_value (sc_env sc) (sc_fc sc) (sc_dir sc) (sc_elev sc) in
     doc true "sigmaSF" (Fin sl) /\ doc false "sigmaSF" (Fin sn) /\ 0 < sl /\ 0 < sn) /\
    forall b s is u iu p t,
      link_coefficient (sc_dir sc) o2 b s is u iu p t =
      option_map (fun h => cmul h (creal (Rpower 10 (- (if los b s u then sl * (zl b s u - dr_z_los dr b s u)
                                                       else sn * (zn b s u - dr_z_nlos dr b s u)) / 20))))
        (link_coefficient (sc_dir sc) o1 b s is u iu p t).
Proof.
  intros Hc Hp Hs Ch H1 HC zl zn. assert (Ha := constructed_accepted sc Hc).
  destruct (sf_draws_channel sc al c a dr z zl zn c1 Ch H1) as (p & H2 & ST2).
  destruct (change_ok sc al c a dr z c1 H1 Ch) as (ST1 & _).
  destruct (pathloss_composed _ _ _ _ _ Hc ST1) as (los & g & f1 & sl & sn & cl & L1 & G1 & F1 & D1 & D2 & D3 & _ & _ & _ & P1).
  destruct (pathloss_composed _ _ _ _ _ Hc ST2) as (los2 & g2 & f2 & sl2 & sn2 & cl2 & L2 & G2 & F2 & D1' & D2' & D3' & _ & _ & _ & P2).
  assert (los2 = los) by (cbn [with_pl s_los] in L2; congruence). assert (g2 = g) by (cbn [with_pl s_geo] in G2; congruence). subst los2 g2.
  assert (SL := documented_value_fun _ _ _ _ _ _ _ _ D1' D1). assert (SN := documented_value_fun _ _ _ _ _ _ _ _ D2' D2).
  assert (CL := documented_value_fun _ _ _ _ _ _ _ _ D3' D3). injection SL as ->. injection SN as ->. injection CL as ->.
  rewrite (switches_eta sc true false Hp Hs) in HC.
  destruct (C32_l _ _ _ _ _ _ _ _ _ _ _ _ HC) as (out0 & lsps & pl & C0 & UL & PL & Q1).
  assert (C2 : exists o2, chan_call srt srtd (with_switches true false sc) ua ba al (chan_with_pl p c1) fs d = Ok o2).
  { revert C0. unfold chan_call. cbn [sc_pathloss sc_shadow sc_dir with_switches c_st chan_with_pl c_lsp c_mask s_ut_vel s_ut_ori s_bs_ori s_bs_loc s_geo s_los s_lsp with_pl].
    change (lsp_sampler (chan_with_pl p c1) (cd_lsp d)) with (lsp_sampler c1 (cd_lsp d)).
    intros C0.
    destruct (if al then lsp_sampler c1 (cd_lsp d)
           else match c_lsp c1 with Some l => Ok l | None => Err (AttributeError "_lsp") end) as [lsps'|]; cbn [bind] in *; [|discriminate].
    destruct (c_mask c1) as [mask|]; cbn [bind] in *; [|discriminate].
    change (gen_rays srt (with_pl p (c_st c1)) mask lsps' (cd_rays d)) with (gen_rays srt (c_st c1) mask lsps' (cd_rays d)).
    destruct (gen_rays srt (c_st c1) mask lsps' (cd_rays d)) as [rr|]; cbn [bind] in *; [|discriminate].
    destruct (s_ut_vel (c_st c1)) as [vel|]; [|discriminate].
    destruct (s_ut_ori (c_st c1)) as [uo|]; [|discriminate].
    destruct (s_bs_ori (c_st c1)) as [bo|]; [|discriminate].
    destruct (s_bs_loc (c_st c1)) as [bs|]; [|discriminate].
    destruct (s_geo (c_st c1)) as [g'|]; [|discriminate].
    destruct (s_los (c_st c1)) as [los'|]; [|discriminate].
    destruct (s_lsp (c_st c1)) as [ls|]; [|discriminate].
    destruct (Nat.eqb (t_num bs) 1); cbn [negb] in *; [|discriminate]. unfold sample_pathloss. cbn [s_pl with_pl bind]. eauto. }
  destruct C2 as [o2 C2].
  destruct (C32_l _ _ _ _ _ _ _ _ _ _ _ _ C2) as (out0' & lsps2 & pl2 & C0' & UL2 & PL2 & Q2).
  assert (E0 : out0' = out0).
  { assert (E : chan_call srt srtd (with_switches false false sc) ua ba al (chan_with_pl p c1) fs d =
                chan_call srt srtd (with_switches false false sc) ua ba al c1 fs d) by reflexivity.
    congruence. }
  subst out0'.
  exists (chan_with_pl p c1), o2, los, sl, sn. split; [exact H2|].
  split; [rewrite (switches_eta sc true false Hp Hs); exact C2|]. split; [exact L1|].
  split; [cbv zeta; split; [exact D1|]; split; [exact D2|]; split; eapply sigmaSF_pos; eassumption|].
  intros b s is u iu q t.
  destruct (Q1 b s u) as (x1 & X1 & _ & R1). destruct (Q2 b s u) as (x2 & X2 & _ & R2).
  destruct (R1 is iu q t) as [R1c _]. destruct (R2 is iu q t) as [R2c _]. rewrite R1c, R2c.
  destruct (link_coefficient (sc_dir sc) out0 b s is u iu q t) as [h|]; [|reflexivity]. cbn [option_map].
  assert (EX : x2 = x1 * Rpower 10 (- (if los b s u then sl * (zl b s u - dr_z_los dr b s u)
                                                       else sn * (zn b s u - dr_z_nlos dr b s u)) / 20)).
  { rewrite X1, X2, !Rmult_1_r, <- Rpower_plus. f_equal. specialize (PL eq_refl). specialize (PL2 eq_refl).
    cbn [c_st chan_with_pl] in PL2. replace pl with f1 by congruence. replace pl2 with f2 by congruence.
    rewrite P1, P2. cbn [dr_z_los dr_z_nlos with_sf_draws]. destruct (los b s u); field. }
  rewrite EX, creal_mul. f_equal. ring.
Qed.
