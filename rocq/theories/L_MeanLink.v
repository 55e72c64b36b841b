(* Mean received power of one link of the channel object. *)
From Coq Require Import Reals Nsatz String List Bool Arith Lia Lra Permutation Sorting.Sorted.
From Verif Require Import M_Base L_Base M_Params S_Config L_Params L_Config M_Geometry M_Pathloss M_Scenario
  M_Lsp S_Linear L_Linear S_Lsp S_Topology L_Pathloss L_Trig L_Geometry L_Scenario L_Fresh L_Topology L_Corr L_Lsp
  S_Pathloss L_Loss M_Rays S_Rays L_Rays L_RaysEx M_Antenna L_Antenna M_Cplx M_Coeff S_Coeff L_Rotation L_Coeff M_Channel S_Channel L_Chol L_Channel L_Link L_Paths
  S_Ray L_Ray S_Mean L_Mean S_MeanLink.
Import ListNotations.
Open Scope string_scope.
Open Scope list_scope.
Open Scope R_scope.

(* the sum over the paths of a scaled list of coefficients *)
Lemma sum_paths (l : list coeff) (f : R) i j t :
  Rsum (map (fun p => match option_map (fun x => cmul x (creal f)) (option_map (fun h : coeff => h i j t) (nth_error l p)) with
                      | Some h => cnorm2 h | None => 0 end) (seq 0 (length l))) =
  f * f * Rsum (map (fun h : coeff => cnorm2 (h i j t)) l).
Proof.
  induction l as [|h l IH]; [cbn; ring|].
  cbn [length seq map]. rewrite <- seq_shift, map_map.
  cbn [nth_error option_map]. cbn [Rsum fold_right] in *. unfold Rsum in *. cbn [fold_right]. rewrite IH.
  rewrite cnorm2_mul, cnorm2_real. ring.
Qed.

Lemma gain_square (pl sf : R) (bp bs : bool) : 0 < sf ->
  ((if bp then Rpower 10 (- pl / 20) else 1) * (if bs then sqrt sf else 1)) * ((if bp then Rpower 10 (- pl / 20) else 1) * (if bs then sqrt sf else 1)) =
  (if bp then Rpower 10 (- pl / 10) else 1) * (if bs then sf else 1).
Proof.
  intros P.
  assert (A : Rpower 10 (- pl / 20) * Rpower 10 (- pl / 20) = Rpower 10 (- pl / 10)) by (rewrite <- Rpower_plus; f_equal; field).
  assert (B : sqrt sf * sqrt sf = sf) by (apply sqrt_sqrt; lra).
  destruct bp, bs; nra.
Qed.

Lemma C84_link_l : forall srt srtd j1 pu pb ua ba sc al ops a dr z fs d D b s is u iu t,
  valid_argsort srt -> valid_argsort_desc srtd -> constructed sc -> settled sc al ops a dr z ->
  make_array j1 pu = Ok ua -> make_array j1 pb = Ok ba -> (is < pa_num_ant ba)%nat -> (iu < pa_num_ant ua)%nat ->
  only_phases_vary (sc_dir sc) b s u d D ->
  let c := chan_run sc al (chan_init sc) ops in
  let call ph := chan_call srt srtd sc ua ba al c fs (D ph) in
  exists lsps mask rr vel uo bo bs g los ind pl n1 n2,
    (forall ph, is_ok (call ph)) /\
    (if al then lsp_sampler c (cd_lsp d) = Ok lsps else c_lsp c = Some lsps) /\ c_mask c = Some mask /\
    gen_rays srt (c_st c) mask lsps (cd_rays d) = Ok rr /\
    s_ut_vel (c_st c) = Some vel /\ s_ut_ori (c_st c) = Some uo /\ s_bs_ori (c_st c) = Some bo /\ s_bs_loc (c_st c) = Some bs /\
    s_geo (c_st c) = Some g /\ s_los (c_st c) = Some los /\ s_in (c_st c) = Some ind /\
    (sc_pathloss sc = true -> sample_pathloss (c_st c) = Ok pl) /\
    (forall l, documented_value (sc_env sc) (sc_fc sc) (sc_dir sc) (sc_elev sc) l "numClusters"
                 (Fin (INR (if l then n1 else n2)))) /\
    (t_at ind b u = false -> (los b s u = true -> Rpower 10 (- 6.3) <= l_k (lsps b s u)) ->
     let n := Nat.max n1 n2 in
     let K := l_k (lsps b s u) in
     let gain := (if sc_pathloss sc then Rpower 10 (- pl b s u / 10) else 1) * (if sc_shadow sc then l_sf (lsps b s u) else 1) in
     exists y, rr b s u = Some y /\ length (r_powers y) = n /\ Rsum (r_powers y) = 1 /\ (forall c, 0 <= nth c (r_powers y) 0) /\
       (forall c q, 0 < r_xpr y c q) /\
       let up := String.eqb (sc_dir sc) "uplink" in
       let G := if up then swap_gen (down_arrays sc ua ba) else down_arrays sc ua ba in
       let L0 := down_link sc (c_st c) vel uo bo bs g los (cd_dir d) b s u in
       let L := if up then swap_topo L0 else L0 in
       let Y := if up then swap_rays y else y in
       let rx := if up then is else iu in let tx := if up then iu else is in
       forall F E, fields_of G L Y n F -> uniform_phases n E ->
         E (fun ph => match call ph with Ok o => creal (received_power (sc_dir sc) o b s is u iu (n + 4) t) | Err _ => c0 end) =
         creal (gain * ricean (los b s u) K (cnorm2 (los_ray G L (fun t => INR t / fs) rx tx t)) (scattered_power Y F n rx tx))).
Proof.
  intros srt srtd j1 pu pb ua ba sc al ops a dr z fs d D b s is u iu t V VD Hc Hs Hu Hb His Hiu VP c call.
  assert (OKc : forall ph, is_ok (call ph)) by (intros ph; apply (call_defined _ _ ua ba _ _ _ _ _ _ fs (D ph) Hc Hs)).
  destruct (settled_state _ _ _ _ _ _ Hs) as (ch0 & st' & ut & bs0 & Cm & Sm & Lx & Ls & mask & ST & SU & _ & _ & _ & _ & _ & EM & SAME & CX & CS & MK & CL).
  cbv zeta in SAME, MK, CX, CS, CL. fold c in SAME, MK, CX, CS, CL.
  destruct SAME as (S1 & S2 & S3 & S4 & S5 & S6 & S7 & S8).
  destruct (OKc (fun _ _ _ => 0)) as [o0 O0]. unfold call in O0.
  destruct (C31_axes_l _ _ _ _ _ _ _ _ _ _ O0) as (lsps & mask' & rr & vel & uo & bo & bs & g & los & ls & pl & D1 & D2 & D3 & D4 & D5 & D6 & D7 & D8 & D9 & D10 & D11 & D12 & _).
  unfold used_lsps in D1. rewrite (pv_lsp _ _ _ _ _ _ VP) in D1. rewrite (pv_rays _ _ _ _ _ _ VP) in D3.
  assert (mask' = mask) by congruence. subst mask'.
  assert (G : gen_rays srt st' mask lsps (cd_rays d) = Ok rr).
  { rewrite <- D3. unfold gen_rays. rewrite S6, S5, S4, S3, S2. reflexivity. }
  destruct (C23_l _ _ _ _ _ _ srt lsps _ rr Hc ST EM G) as (los3 & ind & n1 & n2 & F1 & F2 & F3 & F4).
  assert (los3 = los) by congruence. subst los3.
  destruct (C22_l _ _ _ _ _ _ srt lsps _ rr Hc ST EM G) as (los4 & m1 & m2 & G1 & G2 & G3).
  assert (los4 = los) by congruence. subst los4.
  assert (EMM : m1 = n1 /\ m2 = n2).
  { assert (Q1 := documented_value_fun _ _ _ _ _ _ _ _ (F3 true) (G2 true)). assert (Q2 := documented_value_fun _ _ _ _ _ _ _ _ (F3 false) (G2 false)).
    injection Q1 as Q1. injection Q2 as Q2. apply INR_eq in Q1, Q2. auto. }
  destruct EMM as [-> ->].
  destruct (make_ready _ _ _ _ _ Hc ST) as (ls9 & los9 & g9 & ind9 & bs9 & mask9 & RD).
  assert (ls9 = ls) by (assert (E := rd_ls _ _ _ _ _ _ _ _ RD); congruence). subst ls9.
  assert (N2 : (2 <= Nat.max n1 n2)%nat).
  { destruct (rd_nc _ _ _ _ _ _ _ _ RD true) as [NB ND].
    assert (Q1 := documented_value_fun _ _ _ _ _ _ _ _ (F3 true) ND). injection Q1 as Q1. apply INR_eq in Q1. lia. }
  destruct (xpr_l _ _ _ _ _ _ srt lsps _ rr Hc ST EM G) as (los5 & H1 & H2).
  exists lsps, mask, rr, vel, uo, bo, bs, g, los, ind, pl, n1, n2.
  split; [exact OKc|]. split; [exact D1|]. split; [exact D2|]. split; [exact D3|]. do 6 (split; [assumption|]).
  split; [congruence|]. split; [exact D12|]. split; [exact F3|]. intros Hi HK. cbv zeta.
  destruct (F4 b s u Hi HK) as (y & Y & LP & SP & PP & PZ & _). destruct (G3 b s u y Y HK) as (LD & _ & Z0 & NN & _).
  destruct (H2 b s u y Y) as (mu & sg & _ & _ & XP).
  exists y. split; [exact Y|]. split; [exact LP|]. split; [exact SP|].
  assert (PW : forall c, 0 <= nth c (r_powers y) 0).
  { intros k. destruct (le_lt_dec (if los b s u then n1 else n2) k) as [Q|Q]; [rewrite PZ by exact Q; lra|]. apply Rlt_le, PP, Q. }
  split; [exact PW|]. split; [intros; apply XP|].
  intros F E FO UP.
  (* positivity of the large-scale parameters *)
  assert (LPOS : 0 < l_k (lsps b s u) /\ 0 < l_sf (lsps b s u)).
  { destruct al.
    - unfold lsp_sampler in D1. rewrite CX, CS in D1. destruct (s_ut_loc (c_st c)) as [ut'|]; [|discriminate].
      assert (SL : forall n' Lx' Ls' z', sample_lsp (c_st c) n' Lx' Ls' z' = sample_lsp st' n' Lx' Ls' z') by (intros; unfold sample_lsp; rewrite ?S1, ?S2, ?S3, ?S4, ?S5, ?S6, ?S7; reflexivity).
      rewrite SL in D1. destruct (C18_l _ _ _ _ _ (t_num ut') Lx Ls (cd_lsp d) Hc ST) as (lo & f & _ & Ef & Pf).
      assert (f = lsps) by congruence. subst f. specialize (Pf b s u). tauto.
    - destruct (CL eq_refl) as (l & SL & CC). assert (l = lsps) by congruence. subst l.
      destruct (C18_l _ _ _ _ _ (t_num ut) Lx Ls z Hc ST) as (lo & f & _ & Ef & Pf).
      assert (f = lsps) by congruence. subst f. specialize (Pf b s u). tauto. }
  destruct LPOS as [KP SFP].
  assert (FC : 0 < sc_fc sc) by (destruct (ac_band sc (constructed_accepted sc Hc)) as [[? ?]|[? ?]]; lra).
  set (up := String.eqb (sc_dir sc) "uplink") in *.
  set (GG := if up then swap_gen (down_arrays sc ua ba) else down_arrays sc ua ba) in *.
  set (L0 := down_link sc (c_st c) vel uo bo bs g los (cd_dir d) b s u) in *.
  set (LL := if up then swap_topo L0 else L0) in *.
  set (YY := if up then swap_rays y else y) in *.
  set (rx := if up then is else iu). set (tx := if up then iu else is).
  set (cds := lp_cDS (ls_col ls (los b s u)) * 1e-9).
  set (gain := (if sc_pathloss sc then Rpower 10 (- pl b s u / 10) else 1) * (if sc_shadow sc then l_sf (lsps b s u) else 1)).
  assert (LDY : length (r_delays YY) = Nat.max n1 n2) by (unfold YY; destruct up; exact LD).
  assert (CDS : 0 <= cds).
  { destruct (rd_col _ _ _ _ _ _ _ _ RD (los b s u)) as [_ GC]. assert (Q := gc_cDS _ _ GC). unfold cds. lra. }
  assert (PTS : forall ph, match call ph with Ok o => creal (received_power (sc_dir sc) o b s is u iu (Nat.max n1 n2 + 4) t) | Err _ => c0 end =
    cmul (creal gain) (creal (Rsum (map (fun h : coeff => cnorm2 (h rx tx t)) (fst (cir srt srtd GG LL (l_k (lsps b s u)) YY fs cds ph)))))).
  { intros ph. destruct (OKc ph) as [o O]. rewrite O. unfold call in O.
    destruct (C31_axes_l _ _ _ _ _ _ _ _ _ _ O) as (lsps' & mask' & rr' & vel' & uo' & bo' & bs' & g' & los' & ls' & pl' & E1 & E2 & E3 & E4 & E5 & E6 & E7 & E8 & E9 & E10 & E11 & E12 & E13).
    unfold used_lsps in E1. rewrite (pv_lsp _ _ _ _ _ _ VP) in E1. rewrite (pv_rays _ _ _ _ _ _ VP) in E3.
    assert (lsps' = lsps) by (destruct al; congruence). subst lsps'.
    assert (mask' = mask) by congruence. subst mask'. assert (rr' = rr) by congruence. subst rr'.
    assert (vel' = vel) by congruence. subst vel'. assert (uo' = uo) by congruence. subst uo'. assert (bo' = bo) by congruence. subst bo'.
    assert (bs' = bs) by congruence. subst bs'. assert (g' = g) by congruence. subst g'. assert (los' = los) by congruence. subst los'.
    assert (ls' = ls) by congruence. subst ls'.
    specialize (E13 b s u). cbv zeta in E13. rewrite Y in E13. rewrite (pv_dir _ _ _ _ _ _ VP) in E13. fold L0 cds up in E13.
    assert (FAC : (if sc_pathloss sc then Rpower 10 (- pl' b s u / 20) else 1) = (if sc_pathloss sc then Rpower 10 (- pl b s u / 20) else 1)).
    { destruct (sc_pathloss sc); [|reflexivity]. specialize (D12 eq_refl). specialize (E12 eq_refl). assert (pl' = pl) by congruence. subst; reflexivity. }
    rewrite FAC in E13.
    assert (LEN := cir_paths srt srtd GG LL (l_k (lsps b s u)) YY fs cds ph V VD ltac:(unfold GG; destruct up; reflexivity)
      ltac:(unfold YY; destruct up; cbn [swap_rays r_powers r_delays]; congruence) ltac:(lia) CDS
      ltac:(unfold YY; destruct up; exact Z0) ltac:(unfold YY; destruct up; exact NN)).
    destruct (cir srt srtd GG LL (l_k (lsps b s u)) YY fs cds ph) as [h dl] eqn:EC. destruct LEN as (LH & _).
    cbn [fst]. rewrite LDY in LH. rewrite <- LH.
    unfold gain. rewrite <- (gain_square (pl b s u) _ (sc_pathloss sc) (sc_shadow sc) SFP).
    set (f := (if sc_pathloss sc then Rpower 10 (- pl b s u / 20) else 1) * (if sc_shadow sc then sqrt (l_sf (lsps b s u)) else 1)) in *.
    transitivity (creal (f * f * Rsum (map (fun h : coeff => cnorm2 (h rx tx t)) h))); [|apply cplx_eq; cbn; ring].
    rewrite <- sum_paths. unfold received_power. f_equal. f_equal. apply map_ext. intros p.
    destruct (E13 is iu p t) as [_ Q]. rewrite Q. clear Q. unfold up in *.
    destruct (String.eqb (sc_dir sc) "uplink") eqn:ED.
    - rewrite (pv_up _ _ _ _ _ _ VP ltac:(apply String.eqb_eq; exact ED)) in *. subst GG LL YY rx tx. rewrite EC. reflexivity.
    - rewrite (pv_down _ _ _ _ _ _ VP ltac:(apply String.eqb_neq; exact ED)) in *. subst GG LL YY rx tx. rewrite EC. reflexivity. }
  rewrite (up_ext _ _ UP _ _ PTS), (up_scale _ _ UP).
  assert (PRX : exists p, make_array j1 p = Ok (cg_rx GG)) by (unfold GG; destruct up; eexists; eassumption).
  assert (PTX : exists p, make_array j1 p = Ok (cg_tx GG)) by (unfold GG; destruct up; eexists; eassumption).
  destruct PRX as [prx PRX]. destruct PTX as [ptx PTX].
  rewrite (C83_power_l srt srtd j1 prx ptx GG LL (l_k (lsps b s u)) YY fs cds F E rx tx t V VD PRX PTX).
  - rewrite LDY. fold (scattered_power YY F (Nat.max n1 n2) rx tx).
    replace (lt_los LL) with (los b s u) by (unfold LL; destruct up; reflexivity).
    unfold ricean. apply cplx_eq; cbn; ring.
  - unfold GG; destruct up; exact FC.
  - exact KP.
  - unfold YY; destruct up; cbn [swap_rays r_powers r_delays]; congruence.
  - lia.
  - intros k _. unfold YY; destruct up; apply PW.
  - intros k q _ _. unfold YY; destruct up; apply XP.
  - rewrite LDY. exact FO.
  - rewrite LDY. exact UP.
  - unfold rx, GG; destruct up; assumption.
  - unfold tx, GG; destruct up; assumption.
Qed.

(* ---- vertical omnidirectional antennas ---- *)
Lemma omni_element j1 p a k e theta phi : make_array j1 p = Ok a -> vertical_omni p -> antenna_element a k e ->
  field e theta phi = (1, 0).
Proof.
  intros H (A & B & C) X. unfold make_array in H. rewrite A, B, C in H.
  change (String.eqb "single" "single") with true in H. change (String.eqb "V" "V") with true in H. cbn [orb negb] in H.
  destruct (negb _); [discriminate|]. destruct (negb _); [discriminate|].
  unfold make_element in H. change (String.eqb "omni" "omni") with true in H. cbn [bind fst snd] in H.
  destruct (Nat.eqb _ 0); [discriminate|]. injection H as <-. destruct X as [X|e' X Y]; [|discriminate].
  cbn [pa_pol1]. unfold field. cbn [el_pattern el_slant]. unfold pattern_omni. rewrite sqrt_1, cos_0, sin_0. f_equal; ring.
Qed.

Lemma orient_upright o v : upright o -> orient o v = rot_z (vx o) v.
Proof.
  intros [Y Z]. unfold orient. rewrite Y, Z. destruct v as [x y z]. unfold rot_x, rot_y; cbn [vx vy vz].
  rewrite cos_0, sin_0. f_equal. f_equal; ring.
Qed.

Lemma upright_field j1 p a k o theta phi F : make_array j1 p = Ok a -> vertical_omni p -> upright o ->
  radiates a k o theta phi F -> fst F * fst F = 1 /\ snd F = 0.
Proof.
  intros H VO UP (el & t & q & AE & T & _ & E & FV). rewrite (omni_element _ _ _ _ _ t q H VO AE) in FV.
  rewrite (orient_upright _ _ UP) in E. rewrite (orient_upright _ _ UP) in FV. destruct F as [f1 f2]. cbn [fst snd].
  assert (S : 0 < sin t) by (apply sin_gt_0; lra).
  unfold rho_hat, field_vector, theta_hat, phi_hat, rot_z in *. v3.
  injection E as E1 E2 E3. injection FV as V1 V2 V3'.
  pose proof (trig_one theta) as T1. pose proof (trig_one phi) as T2. pose proof (trig_one t) as T3.
  pose proof (trig_one q) as T4. pose proof (trig_one (vx o)) as T5.
  set (st := sin t) in *. set (ct := cos t) in *. set (sq' := sin q) in *. set (cq := cos q) in *. set (sa := sin (vx o)) in *. set (ca := cos (vx o)) in *.
  set (sth := sin theta) in *. set (cth := cos theta) in *. set (sp := sin phi) in *. set (cp := cos phi) in *.
  assert (F2 : f2 = 0).
  { apply Rmult_eq_reg_l with st; [|lra]. rewrite Rmult_0_r. 
    transitivity (st * (- sp * (f1 * (cth * cp) + f2 * - sp) + cp * (f1 * (cth * sp) + f2 * cp))).
    - transitivity (st * f2 * (cp * cp + sp * sp)); [rewrite T2|]; ring.
    - rewrite V1, V2. transitivity (ct * (- sp * (ca * (st * cq) - sa * (st * sq')) + cp * (sa * (st * cq) + ca * (st * sq')))); [ring|].
      rewrite E1, E2. ring. }
  split; [|exact F2]. subst f2.
  assert (N : (f1 * (cth * cp) + 0 * - sp) * (f1 * (cth * cp) + 0 * - sp) + (f1 * (cth * sp) + 0 * cp) * (f1 * (cth * sp) + 0 * cp)
              + (f1 * - sth + 0 * 0) * (f1 * - sth + 0 * 0) = f1 * f1).
  { transitivity (f1 * f1 * (cth * cth * (cp * cp + sp * sp) + sth * sth)); [ring|]. rewrite T2.
    replace (cth * cth * 1 + sth * sth) with 1 by lra. ring. }
  rewrite <- N, V1, V2, V3'.
  transitivity (ct * ct * ((ca * ca + sa * sa) * (cq * cq + sq' * sq')) + st * st); [ring|]. rewrite T4, T5. lra.
Qed.

Lemma slanted_off_axis o theta phi : upright o -> slanted theta -> off_axis o theta phi.
Proof.
  intros UP S. unfold off_axis. rewrite !(orient_upright _ _ UP). unfold rho_hat, rot_z; cbn [vx vy vz].
  split; intros X; injection X as X Y Z; pose proof (trig_one theta) as T; rewrite Z in T; apply S; nra.
Qed.

Lemma omni_polarised (f : R * R) (f' g : R * R) xpr a : fst f * fst f = 1 -> snd f = 0 -> fst g * fst g = 1 -> snd g = 0 -> f' = turned a g ->
  polarised_power xpr f f f' f' = cos a * cos a + sin a * sin a / xpr.
Proof.
  intros A B C D ->. unfold polarised_power, turned. cbn [fst snd]. rewrite B, D, !Rmult_0_r, !Rmult_0_l, !Rplus_0_r, !Rminus_0_r.
  replace (fst f * fst f * (cos a * fst g * (cos a * fst g))) with (fst f * fst f * (fst g * fst g) * (cos a * cos a)) by ring.
  replace (fst f * fst f * (sin a * fst g * (sin a * fst g))) with (fst f * fst f * (fst g * fst g) * (sin a * sin a)) by ring.
  rewrite A, C. unfold Rdiv. ring.
Qed.

Lemma turned_0 F : turned 0 F = F.
Proof. unfold turned. rewrite cos_0, sin_0. destruct F; cbn [fst snd]. f_equal; ring. Qed.

Lemma sum_over_rays (P : list R) (f : nat -> nat -> R) x : Rsum P = 1 ->
  Rsum (map (fun cr : nat * nat => nth (fst cr) P 0 / 20 * (x + f (fst cr) (snd cr))) (list_prod (seq 0 (length P)) (seq 0 20))) =
  x + Rsum (map (fun cr : nat * nat => nth (fst cr) P 0 / 20 * f (fst cr) (snd cr)) (list_prod (seq 0 (length P)) (seq 0 20))).
Proof.
  intros H.
  assert (A : forall (l : list (nat * nat)) (u v : nat * nat -> R), Rsum (map (fun i => u i + v i) l) = Rsum (map u l) + Rsum (map v l)).
  { induction l as [|i l IH]; intros u v; cbn [map]; unfold Rsum in *; cbn [fold_right]; [ring|]. rewrite IH. ring. }
  rewrite (map_ext _ (fun cr : nat * nat => nth (fst cr) P 0 / 20 * x + nth (fst cr) P 0 / 20 * f (fst cr) (snd cr))) by (intros; ring).
  rewrite A. f_equal. transitivity (x * Rsum P); [|rewrite H; ring]. clear.
  assert (B : forall m l k, Rsum (map (fun cr : nat * nat => nth (fst cr) l 0 / 20 * x) (list_prod (seq k m) (seq 0 20))) =
     x * Rsum (map (fun c => nth c l 0) (seq k m))).
  { induction m as [|m IH]; intros l k; [cbn; ring|]. cbn [seq list_prod]. rewrite map_app, map_map.
    assert (AP : forall u v, Rsum (u ++ v) = Rsum u + Rsum v).
    { induction u as [|i u IHu]; intros v; unfold Rsum in *; cbn [app fold_right]; [ring|]. rewrite IHu. ring. }
    rewrite AP, IH. cbn [fst]. cbn [seq map]. unfold Rsum. cbn [fold_right]. field. }
  rewrite B. f_equal. f_equal. apply nth_ext with (d := 0) (d' := 0); [rewrite map_length, seq_length; reflexivity|].
  intros i Hi. rewrite map_length, seq_length in Hi. rewrite (nth_indep _ 0 (nth 0 P 0)) by (rewrite map_length, seq_length; exact Hi).
  change (nth 0 P 0) with ((fun c => nth c P 0) 0%nat). rewrite map_nth, seq_nth by exact Hi. reflexivity.
Qed.

Lemma C84_omni_l : forall srt srtd j1 pu pb ua ba sc al ops a dr z fs d D b s is u iu t,
  valid_argsort srt -> valid_argsort_desc srtd -> constructed sc -> settled sc al ops a dr z ->
  make_array j1 pu = Ok ua -> make_array j1 pb = Ok ba -> (is < pa_num_ant ba)%nat -> (iu < pa_num_ant ua)%nat ->
  vertical_omni pu -> vertical_omni pb -> only_phases_vary (sc_dir sc) b s u d D ->
  let c := chan_run sc al (chan_init sc) ops in
  let call ph := chan_call srt srtd sc ua ba al c fs (D ph) in
  exists lsps mask rr uo bo bs g los ind pl n1 n2,
    (forall ph, is_ok (call ph)) /\
    (if al then lsp_sampler c (cd_lsp d) = Ok lsps else c_lsp c = Some lsps) /\ c_mask c = Some mask /\
    gen_rays srt (c_st c) mask lsps (cd_rays d) = Ok rr /\
    s_ut_ori (c_st c) = Some uo /\ s_bs_ori (c_st c) = Some bo /\ s_bs_loc (c_st c) = Some bs /\
    s_geo (c_st c) = Some g /\ s_los (c_st c) = Some los /\ s_in (c_st c) = Some ind /\
    (sc_pathloss sc = true -> sample_pathloss (c_st c) = Ok pl) /\
    (forall l, documented_value (sc_env sc) (sc_fc sc) (sc_dir sc) (sc_elev sc) l "numClusters"
                 (Fin (INR (if l then n1 else n2)))) /\
    (t_at ind b u = false -> (los b s u = true -> Rpower 10 (- 6.3) <= l_k (lsps b s u)) ->
     upright (t_at uo b u) -> upright (t_at bo b s) ->
     let n := Nat.max n1 n2 in
     let K := l_k (lsps b s u) in
     let gain := (if sc_pathloss sc then Rpower 10 (- pl b s u / 10) else 1) * (if sc_shadow sc then l_sf (lsps b s u) else 1) in
     exists y, rr b s u = Some y /\
       forall E faraday, uniform_phases n E ->
       (forall c r, (c < n)%nat -> (r < 20)%nat -> slanted (r_zoa y c r) /\ slanted (r_zod y c r)) ->
       slanted (deg_2_rad (g_zoa g b s u)) -> slanted (deg_2_rad (g_zod g b s u)) ->
       (600000 <= vz (t_at bs 0%nat 0%nat) -> faraday = 108 / ((sc_fc sc / 1e9) * (sc_fc sc / 1e9)) * PI / 180) ->
       (vz (t_at bs 0%nat 0%nat) < 600000 -> faraday = 0) ->
       let leak := Rsum (map (fun cr => nth (fst cr) (r_powers y) 0 / 20 * (1 / r_xpr y (fst cr) (snd cr))) (list_prod (seq 0 n) (seq 0 20))) in
         E (fun ph => match call ph with Ok o => creal (received_power (sc_dir sc) o b s is u iu (n + 4) t) | Err _ => c0 end) =
         creal (gain * ((cos faraday)² + (if los b s u then 1 / (K + 1) else 1) * (leak * (sin faraday)²)))).
Proof.
  intros srt srtd j1 pu pb ua ba sc al ops a dr z fs d D b s is u iu t V VD Hc Hs Hu Hb His Hiu Ou Ob VP c call.
  destruct (C84_link_l srt srtd j1 pu pb ua ba sc al ops a dr z fs d D b s is u iu t V VD Hc Hs Hu Hb His Hiu VP)
    as (lsps & mask & rr & vel & uo & bo & bs & g & los & ind & pl & n1 & n2 & A1 & A2 & A3 & A4 & A5 & A6 & A7 & A8 & A9 & A10 & A11 & A12 & A13 & A14).
  exists lsps, mask, rr, uo, bo, bs, g, los, ind, pl, n1, n2. do 12 (split; [assumption|]).
  intros Hi HK Uu Ub. cbv zeta. destruct (A14 Hi HK) as (y & Y & LP & SP & PW & XP & MAIN). clear A14. cbv zeta in MAIN.
  exists y. split; [exact Y|]. intros E fa UP SL Sa Sd FA1 FA0.
  fold c in MAIN. fold call in MAIN.
  set (n := Nat.max n1 n2) in *. set (up := String.eqb (sc_dir sc) "uplink") in *.
  set (L0 := down_link sc (c_st c) vel uo bo bs g los (cd_dir d) b s u) in *.
  set (GG := if up then swap_gen (down_arrays sc ua ba) else down_arrays sc ua ba) in *.
  set (LL := if up then swap_topo L0 else L0) in *. set (YY := if up then swap_rays y else y) in *.
  set (rx := if up then is else iu) in *. set (tx := if up then iu else is) in *.
  assert (FC : 0 < sc_fc sc) by (destruct (ac_band sc (constructed_accepted sc Hc)) as [[? ?]|[? ?]]; lra).
  assert (GFC : cg_fc GG = sc_fc sc) by (unfold GG; destruct up; reflexivity).
  assert (HT : lt_bs_height LL = vz (t_at bs 0%nat 0%nat)) by (unfold LL; destruct up; reflexivity).
  assert (PRX : exists p, make_array j1 p = Ok (cg_rx GG) /\ vertical_omni p) by (unfold GG; destruct up; eexists; split; eassumption).
  assert (PTX : exists p, make_array j1 p = Ok (cg_tx GG) /\ vertical_omni p) by (unfold GG; destruct up; eexists; split; eassumption).
  destruct PRX as (prx & PRX & ORX). destruct PTX as (ptx & PTX & OTX).
  assert (URX : upright (lt_rx_ori LL)) by (unfold LL; destruct up; assumption).
  assert (UTX : upright (lt_tx_ori LL)) by (unfold LL; destruct up; assumption).
  assert (RXN : (rx < pa_num_ant (cg_rx GG))%nat) by (unfold rx, GG; destruct up; assumption).
  assert (TXN : (tx < pa_num_ant (cg_tx GG))%nat) by (unfold tx, GG; destruct up; assumption).
  assert (SLY : forall k r, (k < n)%nat -> (r < 20)%nat -> slanted (r_zoa YY k r) /\ slanted (r_zod YY k r)).
  { intros k r Hk Hr. destruct (SL k r Hk Hr). unfold YY; destruct up; split; assumption. }
  assert (SLL : slanted (lt_zoa LL) /\ slanted (lt_zod LL)) by (unfold LL; destruct up; split; assumption).
  assert (YP : r_powers YY = r_powers y) by (unfold YY; destruct up; reflexivity).
  assert (YX : r_xpr YY = r_xpr y) by (unfold YY; destruct up; reflexivity).
  assert (IONO : forall f f', through_ionosphere (cg_fc GG) (lt_bs_height LL) f f' -> f' = turned fa f).
  { intros f f' [I1 I2]. rewrite GFC, HT in *. destruct (Rle_lt_dec 600000 (vz (t_at bs 0%nat 0%nat))) as [Q|Q].
    - rewrite (FA1 Q). apply I1, Q.
    - rewrite (FA0 Q), turned_0. apply I2, Q. }
  destruct (fields_exist j1 prx ptx GG LL YY n PRX PTX) as [F FO].
  { intros k r Hk Hr. destruct (SLY k r Hk Hr). split; apply slanted_off_axis; assumption. }
  refine (eq_trans (MAIN F E FO UP) _). f_equal. f_equal.
  assert (SC : scattered_power YY F n rx tx = (cos fa)² + Rsum (map (fun cr => nth (fst cr) (r_powers y) 0 / 20 * (1 / r_xpr y (fst cr) (snd cr))) (list_prod (seq 0 n) (seq 0 20))) * (sin fa)²).
  { unfold scattered_power. rewrite YP, YX.
    rewrite (map_ext_in _ (fun cr : nat * nat => nth (fst cr) (r_powers y) 0 / 20 * ((cos fa)² + (sin fa)² * (1 / r_xpr y (fst cr) (snd cr))))).
    - rewrite <- LP. rewrite (sum_over_rays (r_powers y) (fun k r => (sin fa)² * (1 / r_xpr y k r)) _ SP). f_equal.
      generalize (list_prod (seq 0 (length (r_powers y))) (seq 0 20)). intros l. induction l as [|x l IH]; unfold Rsum in *; cbn [map fold_right]; [ring|].
      rewrite IH. ring.
    - intros [k r] I. cbn [fst snd]. apply in_prod_iff in I. destruct I as [I1 I2]. apply in_seq in I1, I2. f_equal.
      destruct (fo_tx _ _ _ _ _ FO k r tx ltac:(lia) ltac:(lia) TXN) as (sent & R1 & R2).
      pose proof (fo_rx _ _ _ _ _ FO k r rx ltac:(lia) ltac:(lia) RXN) as R3.
      destruct (upright_field _ _ _ _ _ _ _ _ PRX ORX URX R3) as [X1 X2]. destruct (upright_field _ _ _ _ _ _ _ _ PTX OTX UTX R1) as [X3 X4].
      rewrite (omni_polarised _ _ sent _ fa X1 X2 X3 X4 (IONO _ _ R2)). unfold Rsqr, Rdiv. ring. }
  rewrite SC. unfold ricean. destruct (los b s u) eqn:EL; [|ring].
  assert (KP : 0 < l_k (lsps b s u)) by (specialize (HK eq_refl); pose proof (exp_pos (- 6.3 * ln 10)); unfold Rpower in HK; lra).
  assert (DR : cnorm2 (los_ray GG LL (fun t => INR t / fs) rx tx t) = (cos fa)²).
  { destruct SLL as [SA SD].
    pose proof (antenna_radiates _ _ _ _ _ _ (lt_aoa LL) PRX RXN (slanted_off_axis _ _ _ URX SA)) as R1.
    pose proof (antenna_radiates _ _ _ _ _ _ (lt_aod LL) PTX TXN (slanted_off_axis _ _ _ UTX SD)) as R2.
    destruct (upright_field _ _ _ _ _ _ _ _ PRX ORX URX R1) as [X1 X2]. destruct (upright_field _ _ _ _ _ _ _ _ PTX OTX UTX R2) as [X3 X4].
    set (f1 := antenna_field (cg_rx GG) _ _ _ _) in *. set (f2 := antenna_field (cg_tx GG) _ _ _ _) in *.
    assert (TI : through_ionosphere (cg_fc GG) (lt_bs_height LL) f2 (turned fa f2)).
    { rewrite GFC, HT. split; intros Q; [rewrite (FA1 Q)|rewrite (FA0 Q), turned_0]; reflexivity. }
    assert (SH : exists f, shift GG LL (lt_zoa LL) (lt_aoa LL) (lt_zod LL) (lt_aod LL) f).
    { eexists. exists (if lt_moving_rx LL then vdot (rho_hat (lt_zoa LL) (lt_aoa LL)) (lt_vel LL) else vdot (rho_hat (lt_zod LL) (lt_aod LL)) (lt_vel LL)),
        (if Rle_dec 600000 (lt_bs_height LL) then if lt_doppler LL then lt_sat_speed LL else 0 else 0). split; [reflexivity|].
      split; [intros ->; reflexivity|]. split; [intros ->; reflexivity|].
      split; [intros Q ->; destruct (Rle_dec 600000 (lt_bs_height LL)); [reflexivity|contradiction]|].
      intros [Q| ->]; destruct (Rle_dec 600000 (lt_bs_height LL)); try reflexivity; lra. }
    destruct SH as [f SH].
    rewrite (C82_direct_l _ _ _ GG LL (fun t => INR t / fs) rx tx t _ _ _ _ PRX PTX RXN TXN ltac:(rewrite GFC; exact FC) R1 R2 TI SH).
    unfold steering. rewrite !cnorm2_mul, !cexpi_norm, cnorm2_real. unfold turned. cbn [fst snd]. rewrite X2, X4.
    transitivity ((fst f1 * fst f1) * (fst f2 * fst f2) * (cos fa * cos fa)); [ring|]. rewrite X1, X3. unfold Rsqr. ring. }
  rewrite DR. field. lra.
Qed.
