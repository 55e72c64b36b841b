(* Means and correlations over frequency and time of the OFDM channel of a link. *)
From Coq Require Import Reals Nsatz String List Bool Arith Lia Lra Permutation Sorting.Sorted.
From Verif Require Import M_Base L_Base M_Params S_Config L_Params L_Config M_Geometry M_Pathloss M_Scenario
  M_Lsp S_Linear L_Linear S_Lsp S_Topology L_Pathloss L_Trig L_Geometry L_Scenario L_Fresh L_Topology L_Corr L_Lsp
  S_Pathloss L_Loss M_Rays S_Rays L_Rays L_RaysEx M_Antenna L_Antenna M_Cplx M_Coeff S_Coeff L_Rotation L_Coeff M_Channel S_Channel L_Chol L_Channel L_Link L_Paths
  S_Ray L_Ray S_Mean L_Mean S_MeanLink L_MeanLink M_Convert S_Convert L_Csum L_Convert S_Wideband.
Import ListNotations.
Open Scope string_scope.
Open Scope list_scope.
Open Scope R_scope.

(* a sum of random coefficients turned by frequency times delay, when different coefficients are uncorrelated *)
Lemma uncorrelated_paths n E m (h h' : nat -> ray_phases -> cplx) (tl : nat -> R) f f' : uniform_phases n E ->
  (forall i j, (i < m)%nat -> (j < m)%nat -> i <> j -> mean_product E (h i) (h' j) = c0) ->
  mean_product E (fun ph => csumN m (fun i => cmul (h i ph) (turn (f * tl i)))) (fun ph => csumN m (fun i => cmul (h' i ph) (turn (f' * tl i)))) =
  csumN m (fun i => cmul (mean_product E (h i) (h' i)) (turn ((f - f') * tl i))).
Proof.
  intros U Z. unfold mean_product at 1.
  rewrite (up_ext _ _ U _ (fun ph => csum (map (fun i => csumN m (fun j =>
     cmul (cmul (turn (f * tl i)) (cconj (turn (f' * tl j)))) (cmul (h i ph) (cconj (h' j ph))))) (seq 0 m)))).
  2: { intros ph. rewrite csumN_conj, <- csumN_mul_r. unfold csumN at 1. f_equal. apply map_ext. intros i.
       rewrite <- csumN_mul_l. apply csumN_ext. intros j _. rewrite cconj_mul. ring. }
  rewrite (up_sum n E U (fun i ph => csumN m (fun j =>
     cmul (cmul (turn (f * tl i)) (cconj (turn (f' * tl j)))) (cmul (h i ph) (cconj (h' j ph)))))).
  fold (csumN m (fun i => E (fun ph => csumN m (fun j =>
     cmul (cmul (turn (f * tl i)) (cconj (turn (f' * tl j)))) (cmul (h i ph) (cconj (h' j ph))))))).
  apply csumN_ext. intros i Hi. unfold csumN.
  rewrite (up_sum n E U (fun j ph => cmul (cmul (turn (f * tl i)) (cconj (turn (f' * tl j)))) (cmul (h i ph) (cconj (h' j ph))))).
  fold (csumN m (fun j => E (fun ph => cmul (cmul (turn (f * tl i)) (cconj (turn (f' * tl j)))) (cmul (h i ph) (cconj (h' j ph)))))).
  rewrite (csumN_ext m _ (fun j => cmul (cmul (turn (f * tl i)) (cconj (turn (f' * tl j)))) (mean_product E (h i) (h' j))))
    by (intros j _; apply (up_scale _ _ U)).
  rewrite (csumN_single m _ i Hi).
  - replace (cmul (turn (f * tl i)) (cconj (turn (f' * tl i)))) with (turn ((f - f') * tl i)); [ring|].
    unfold turn. rewrite cconj_cexpi, <- cexpi_add. f_equal. ring.
  - intros j Hj N. rewrite Z by auto. ring.
Qed.

(* what the paths of one link of the channel object are, for every draw of its phases *)
Lemma link_core : forall srt srtd j1 pu pb ua ba sc al ops a dr z fs d D b s is u iu,
  valid_argsort srt -> valid_argsort_desc srtd -> constructed sc -> settled sc al ops a dr z ->
  make_array j1 pu = Ok ua -> make_array j1 pb = Ok ba -> (is < pa_num_ant ba)%nat -> (iu < pa_num_ant ua)%nat ->
  only_phases_vary (sc_dir sc) b s u d D ->
  let c := chan_run sc al (chan_init sc) ops in
  let call ph := chan_call srt srtd sc ua ba al c fs (D ph) in
  exists lsps mask rr vel uo bo bs g los ind pl n1 n2,
    (forall ph, is_ok (call ph)) /\
    (if al then lsp_sampler c (cd_lsp d) = Ok lsps else c_lsp c = Some lsps) /\ c_mask c = Some mask /\
    gen_rays srt (c_st c) mask lsps (cd_rays d) = Ok rr /\
    s_ut_vel (c_st c) = Some vel /\ s_ut_ori (c_st c) = Some uo /\ s_bs_ori (c_st c) = Some bo /\ s_bs_loc (c_st c) = Some bs /\
    s_geo (c_st c) = Some g /\ s_los (c_st c) = Some los /\ s_in (c_st c) = Some ind /\
    (sc_pathloss sc = true -> sample_pathloss (c_st c) = Ok pl) /\
    (forall l, documented_value (sc_env sc) (sc_fc sc) (sc_dir sc) (sc_elev sc) l "numClusters"
                 (Fin (INR (if l then n1 else n2)))) /\
    (t_at ind b u = false -> (los b s u = true -> Rpower 10 (- 6.3) <= l_k (lsps b s u)) ->
     let n := Nat.max n1 n2 in
     let K := l_k (lsps b s u) in
     let gain := (if sc_pathloss sc then Rpower 10 (- pl b s u / 10) else 1) * (if sc_shadow sc then l_sf (lsps b s u) else 1) in
     exists y, rr b s u = Some y /\ length (r_powers y) = n /\ Rsum (r_powers y) = 1 /\ (forall c, 0 <= nth c (r_powers y) 0) /\
       (forall c q, 0 < r_xpr y c q) /\
       let up := String.eqb (sc_dir sc) "uplink" in
       let G := if up then swap_gen (down_arrays sc ua ba) else down_arrays sc ua ba in
       let L0 := down_link sc (c_st c) vel uo bo bs g los (cd_dir d) b s u in
       let L := if up then swap_topo L0 else L0 in
       let Y := if up then swap_rays y else y in
       let rx := if up then is else iu in let tx := if up then iu else is in
       exists factor cds, 0 < K /\ factor * factor = gain /\ length (r_delays Y) = n /\ (2 <= n)%nat /\ 0 < cg_fc G /\ lt_los L = los b s u /\
         (exists p, make_array j1 p = Ok (cg_rx G)) /\ (exists p, make_array j1 p = Ok (cg_tx G)) /\
         (rx < pa_num_ant (cg_rx G))%nat /\ (tx < pa_num_ant (cg_tx G))%nat /\
         length (r_powers Y) = n /\ (forall c, 0 <= nth c (r_powers Y) 0) /\ (forall c q, 0 < r_xpr Y c q) /\
         (forall ph, let '(h, dl) := cir srt srtd G L K Y fs cds ph in
            length h = (n + 4)%nat /\ length dl = (n + 4)%nat /\ StronglySorted Rle dl /\ nth 0 dl 0 = 0) /\
         (forall ph o, call ph = Ok o -> forall p t,
            link_delay (sc_dir sc) o b s u p = nth_error (snd (cir srt srtd G L K Y fs cds ph)) p /\
            link_coefficient (sc_dir sc) o b s is u iu p t =
              option_map (fun x => cmul x (creal factor)) (option_map (fun h : coeff => h rx tx t) (nth_error (fst (cir srt srtd G L K Y fs cds ph)) p)))).
Proof.
  intros srt srtd j1 pu pb ua ba sc al ops a dr z fs d D b s is u iu V VD Hc Hs Hu Hb His Hiu VP c call.
  assert (OKc : forall ph, is_ok (call ph)) by (intros ph; apply (call_defined _ _ ua ba _ _ _ _ _ _ fs (D ph) Hc Hs)).
  destruct (settled_state _ _ _ _ _ _ Hs) as (ch0 & st' & ut & bs0 & Cm & Sm & Lx & Ls & mask & ST & SU & _ & _ & _ & _ & _ & EM & SAME & CX & CS & MK & CL).
  cbv zeta in SAME, MK, CX, CS, CL. fold c in SAME, MK, CX, CS, CL.
  destruct SAME as (S1 & S2 & S3 & S4 & S5 & S6 & S7 & S8).
  destruct (OKc (fun _ _ _ => 0)) as [o0 O0]. unfold call in O0.
  destruct (C31_axes_l _ _ _ _ _ _ _ _ _ _ O0) as (lsps & mask' & rr & vel & uo & bo & bs & g & los & ls & pl & D1 & D2 & D3 & D4 & D5 & D6 & D7 & D8 & D9 & D10 & D11 & D12 & _).
  unfold used_lsps in D1. rewrite (pv_lsp _ _ _ _ _ _ VP) in D1. rewrite (pv_rays _ _ _ _ _ _ VP) in D3.
  assert (mask' = mask) by congruence. subst mask'.
  assert (G : gen_rays srt st' mask lsps (cd_rays d) = Ok rr).
  { rewrite <- D3. unfold gen_rays. rewrite S6, S5, S4, S3, S2. reflexivity. }
  destruct (C23_l _ _ _ _ _ _ srt lsps _ rr Hc ST EM G) as (los3 & ind & n1 & n2 & F1 & F2 & F3 & F4).
  assert (los3 = los) by congruence. subst los3.
  destruct (C22_l _ _ _ _ _ _ srt lsps _ rr Hc ST EM G) as (los4 & m1 & m2 & G1 & G2 & G3).
  assert (los4 = los) by congruence. subst los4.
  assert (EMM : m1 = n1 /\ m2 = n2).
  { assert (Q1 := documented_value_fun _ _ _ _ _ _ _ _ (F3 true) (G2 true)). assert (Q2 := documented_value_fun _ _ _ _ _ _ _ _ (F3 false) (G2 false)).
    injection Q1 as Q1. injection Q2 as Q2. apply INR_eq in Q1, Q2. auto. }
  destruct EMM as [-> ->].
  destruct (make_ready _ _ _ _ _ Hc ST) as (ls9 & los9 & g9 & ind9 & bs9 & mask9 & RD).
  assert (ls9 = ls) by (assert (E := rd_ls _ _ _ _ _ _ _ _ RD); congruence). subst ls9.
  assert (N2 : (2 <= Nat.max n1 n2)%nat).
  { destruct (rd_nc _ _ _ _ _ _ _ _ RD true) as [NB ND].
    assert (Q1 := documented_value_fun _ _ _ _ _ _ _ _ (F3 true) ND). injection Q1 as Q1. apply INR_eq in Q1. lia. }
  destruct (xpr_l _ _ _ _ _ _ srt lsps _ rr Hc ST EM G) as (los5 & H1 & H2).
  exists lsps, mask, rr, vel, uo, bo, bs, g, los, ind, pl, n1, n2.
  split; [exact OKc|]. split; [exact D1|]. split; [exact D2|]. split; [exact D3|]. do 6 (split; [assumption|]).
  split; [congruence|]. split; [exact D12|]. split; [exact F3|]. intros Hi HK. cbv zeta.
  destruct (F4 b s u Hi HK) as (y & Y & LP & SP & PP & PZ & _). destruct (G3 b s u y Y HK) as (LD & _ & Z0 & NN & _).
  destruct (H2 b s u y Y) as (mu & sg & _ & _ & XP).
  exists y. split; [exact Y|]. split; [exact LP|]. split; [exact SP|].
  assert (PW : forall c, 0 <= nth c (r_powers y) 0).
  { intros k. destruct (le_lt_dec (if los b s u then n1 else n2) k) as [Q|Q]; [rewrite PZ by exact Q; lra|]. apply Rlt_le, PP, Q. }
  split; [exact PW|]. split; [intros; apply XP|].
  (* positivity of the large-scale parameters *)
  assert (LPOS : 0 < l_k (lsps b s u) /\ 0 < l_sf (lsps b s u)).
  { destruct al.
    - unfold lsp_sampler in D1. rewrite CX, CS in D1. destruct (s_ut_loc (c_st c)) as [ut'|]; [|discriminate].
      assert (SL : forall n' Lx' Ls' z', sample_lsp (c_st c) n' Lx' Ls' z' = sample_lsp st' n' Lx' Ls' z') by (intros; unfold sample_lsp; rewrite ?S1, ?S2, ?S3, ?S4, ?S5, ?S6, ?S7; reflexivity).
      rewrite SL in D1. destruct (C18_l _ _ _ _ _ (t_num ut') Lx Ls (cd_lsp d) Hc ST) as (lo & f & _ & Ef & Pf).
      assert (f = lsps) by congruence. subst f. specialize (Pf b s u). tauto.
    - destruct (CL eq_refl) as (l & SL & CC). assert (l = lsps) by congruence. subst l.
      destruct (C18_l _ _ _ _ _ (t_num ut) Lx Ls z Hc ST) as (lo & f & _ & Ef & Pf).
      assert (f = lsps) by congruence. subst f. specialize (Pf b s u). tauto. }
  destruct LPOS as [KP SFP].
  assert (FC : 0 < sc_fc sc) by (destruct (ac_band sc (constructed_accepted sc Hc)) as [[? ?]|[? ?]]; lra).
  set (up := String.eqb (sc_dir sc) "uplink") in *.
  set (GG := if up then swap_gen (down_arrays sc ua ba) else down_arrays sc ua ba) in *.
  set (L0 := down_link sc (c_st c) vel uo bo bs g los (cd_dir d) b s u) in *.
  set (LL := if up then swap_topo L0 else L0) in *.
  set (YY := if up then swap_rays y else y) in *.
  set (rx := if up then is else iu). set (tx := if up then iu else is).
  set (cds := lp_cDS (ls_col ls (los b s u)) * 1e-9).
  set (gain := (if sc_pathloss sc then Rpower 10 (- pl b s u / 10) else 1) * (if sc_shadow sc then l_sf (lsps b s u) else 1)).
  assert (LDY : length (r_delays YY) = Nat.max n1 n2) by (unfold YY; destruct up; exact LD).
  assert (CDS : 0 <= cds).
  { destruct (rd_col _ _ _ _ _ _ _ _ RD (los b s u)) as [_ GC]. assert (Q := gc_cDS _ _ GC). unfold cds. lra. }
  exists ((if sc_pathloss sc then Rpower 10 (- pl b s u / 20) else 1) * (if sc_shadow sc then sqrt (l_sf (lsps b s u)) else 1)), cds.
  split; [exact KP|]. split; [apply gain_square; exact SFP|]. split; [exact LDY|]. split; [exact N2|].
  split; [unfold GG; destruct up; exact FC|]. split; [unfold LL; destruct up; reflexivity|].
  split; [unfold GG; destruct up; eexists; eassumption|]. split; [unfold GG; destruct up; eexists; eassumption|].
  split; [unfold rx, GG; destruct up; assumption|]. split; [unfold tx, GG; destruct up; assumption|].
  assert (LPY : length (r_powers YY) = Nat.max n1 n2) by (unfold YY; destruct up; exact LP).
  split; [exact LPY|]. split; [unfold YY; destruct up; exact PW|].
  split; [intros k q; unfold YY; destruct up; apply XP|]. split.
  - intros ph. rewrite <- LDY. apply cir_paths; try assumption; [unfold GG; destruct up; reflexivity | congruence | lia | |];
      unfold YY; destruct up; assumption.
  - intros ph o O p t. unfold call in O.
    destruct (C31_axes_l _ _ _ _ _ _ _ _ _ _ O) as (lsps' & mask' & rr' & vel' & uo' & bo' & bs' & g' & los' & ls' & pl' & E1 & E2 & E3 & E4 & E5 & E6 & E7 & E8 & E9 & E10 & E11 & E12 & E13).
    unfold used_lsps in E1. rewrite (pv_lsp _ _ _ _ _ _ VP) in E1. rewrite (pv_rays _ _ _ _ _ _ VP) in E3.
    assert (lsps' = lsps) by (destruct al; congruence). subst lsps'.
    assert (mask' = mask) by congruence. subst mask'. assert (rr' = rr) by congruence. subst rr'.
    assert (vel' = vel) by congruence. subst vel'. assert (uo' = uo) by congruence. subst uo'. assert (bo' = bo) by congruence. subst bo'.
    assert (bs' = bs) by congruence. subst bs'. assert (g' = g) by congruence. subst g'. assert (los' = los) by congruence. subst los'.
    assert (ls' = ls) by congruence. subst ls'.
    specialize (E13 b s u). cbv zeta in E13. rewrite Y in E13. rewrite (pv_dir _ _ _ _ _ _ VP) in E13. fold L0 cds up in E13.
    assert (FAC : (if sc_pathloss sc then Rpower 10 (- pl' b s u / 20) else 1) = (if sc_pathloss sc then Rpower 10 (- pl b s u / 20) else 1)).
    { destruct (sc_pathloss sc); [|reflexivity]. specialize (D12 eq_refl). specialize (E12 eq_refl). assert (pl' = pl) by congruence. subst; reflexivity. }
    rewrite FAC in E13. destruct (E13 is iu p t) as [Q1 Q2]. rewrite Q1, Q2. clear Q1 Q2 E13. unfold up in *.
    destruct (String.eqb (sc_dir sc) "uplink") eqn:ED.
    + rewrite (pv_up _ _ _ _ _ _ VP ltac:(apply String.eqb_eq; exact ED)) in *. subst GG LL YY rx tx. split; reflexivity.
    + rewrite (pv_down _ _ _ _ _ _ VP ltac:(apply String.eqb_neq; exact ED)) in *. subst GG LL YY rx tx. split; reflexivity.
Qed.

Lemma on_link_response dir D fr a tau b s is u iu time k : (k < length fr)%nat ->
  on_link dir (fun b r ra t ta => cir_to_ofdm D fr a tau false b r ra t ta time k) b s is u iu =
  csumN (d_path D) (fun p => cmul (on_link dir (fun b r ra t ta => a b r ra t ta p time) b s is u iu)
    (turn (nth k fr 0 * on_link dir (fun b r ra t ta => S_Convert.path_delay tau b r ra t ta p) b s is u iu))).
Proof. intros Hk. unfold on_link. destruct (String.eqb dir "uplink"); apply C50_formula; exact Hk. Qed.

Lemma creal_inj_sum m (f : nat -> R) : csumN m (fun i => creal (f i)) = creal (sumR m f).
Proof. apply cplx_eq; [rewrite csumN_re; reflexivity|]. rewrite csumN_im. cbn. apply sumR_zero. reflexivity. Qed.

Lemma C89_link_l : forall srt srtd j1 pu pb ua ba sc al ops a dr z fs d D b s is u iu fr,
  valid_argsort srt -> valid_argsort_desc srtd -> constructed sc -> settled sc al ops a dr z ->
  make_array j1 pu = Ok ua -> make_array j1 pb = Ok ba -> (is < pa_num_ant ba)%nat -> (iu < pa_num_ant ua)%nat ->
  only_phases_vary (sc_dir sc) b s u d D ->
  let c := chan_run sc al (chan_init sc) ops in
  let call ph := chan_call srt srtd sc ua ba al c fs (D ph) in
  exists lsps mask rr vel uo bo bs g los ind pl n1 n2,
    (forall ph, is_ok (call ph)) /\
    (if al then lsp_sampler c (cd_lsp d) = Ok lsps else c_lsp c = Some lsps) /\ c_mask c = Some mask /\
    gen_rays srt (c_st c) mask lsps (cd_rays d) = Ok rr /\
    s_ut_vel (c_st c) = Some vel /\ s_ut_ori (c_st c) = Some uo /\ s_bs_ori (c_st c) = Some bo /\ s_bs_loc (c_st c) = Some bs /\
    s_geo (c_st c) = Some g /\ s_los (c_st c) = Some los /\ s_in (c_st c) = Some ind /\
    (sc_pathloss sc = true -> sample_pathloss (c_st c) = Ok pl) /\
    (forall l, documented_value (sc_env sc) (sc_fc sc) (sc_dir sc) (sc_elev sc) l "numClusters"
                 (Fin (INR (if l then n1 else n2)))) /\
    (t_at ind b u = false -> (los b s u = true -> Rpower 10 (- 6.3) <= l_k (lsps b s u)) ->
     let n := Nat.max n1 n2 in
     let K := l_k (lsps b s u) in
     let gain := (if sc_pathloss sc then Rpower 10 (- pl b s u / 10) else 1) * (if sc_shadow sc then l_sf (lsps b s u) else 1) in
     exists y, rr b s u = Some y /\
       (forall ph o, call ph = Ok o -> exists a tau, tensors_of (sc_dir sc) o b s is u iu (n + 4) a tau) /\
       let up := String.eqb (sc_dir sc) "uplink" in
       let G := if up then swap_gen (down_arrays sc ua ba) else down_arrays sc ua ba in
       let L0 := down_link sc (c_st c) vel uo bo bs g los (cd_dir d) b s u in
       let L := if up then swap_topo L0 else L0 in
       let Y := if up then swap_rays y else y in
       let rx := if up then is else iu in let tx := if up then iu else is in
       forall F E Dm A TAU, fields_of G L Y n F -> uniform_phases n E -> d_path Dm = (n + 4)%nat ->
         (forall ph o, call ph = Ok o -> tensors_of (sc_dir sc) o b s is u iu (n + 4) (A ph) (TAU ph)) ->
         let H k t ph := on_link (sc_dir sc) (fun b r ra x xa => cir_to_ofdm Dm fr (A ph) (TAU ph) false b r ra x xa t k) b s is u iu in
         let h p t ph := on_link (sc_dir sc) (fun b r ra x xa => A ph b r ra x xa p t) b s is u iu in
         exists delays, StronglySorted Rle delays /\ nth 0 delays 0 = 0 /\
         (forall ph p, (p < n + 4)%nat -> on_link (sc_dir sc) (fun b r ra x xa => S_Convert.path_delay (TAU ph) b r ra x xa p) b s is u iu = nth p delays 0) /\
         forall k k' t t', (k < length fr)%nat -> (k' < length fr)%nat ->
           E (fun ph => creal (cnorm2 (H k t ph))) =
             creal (gain * ricean (los b s u) K (cnorm2 (los_ray G L (fun t => INR t / fs) rx tx t)) (scattered_power Y F n rx tx)) /\
           mean_product E (H k t) (H k' t') =
             csumN (n + 4) (fun p => cmul (mean_product E (h p t) (h p t')) (turn ((nth k fr 0 - nth k' fr 0) * nth p delays 0)))).
Proof.
  intros srt srtd j1 pu pb ua ba sc al ops a dr z fs d D b s is u iu fr V VD Hc Hs Hu Hb His Hiu VP c call.
  destruct (link_core srt srtd j1 pu pb ua ba sc al ops a dr z fs d D b s is u iu V VD Hc Hs Hu Hb His Hiu VP)
    as (lsps & mask & rr & vel & uo & bo & bs & g & los & ind & pl & n1 & n2 & OKc & X1 & X2 & X3 & X4 & X5 & X6 & X7 & X8 & X9 & X10 & X11 & X12 & CORE).
  exists lsps, mask, rr, vel, uo, bo, bs, g, los, ind, pl, n1, n2.
  repeat (split; [assumption|]). intros Hi HK. cbv zeta. fold c in CORE. fold call in CORE.
  destruct (CORE Hi HK) as (y & Y & _ & _ & _ & _ & factor & cds & KP & FF & LD & N2 & FC & LOS & [prx PRX] & [ptx PTX] & RX & TX & LP & PW & XP & PATHS & OUT).
  clear CORE. fold c in PATHS, OUT, LOS. exists y. split; [exact Y|].
  split.
  { intros ph o O. exists (fun b r ra x xa p t => match o_h o b r ra x xa p t with Some v => v | None => c0 end),
      (Tau4 (fun b r x p => match o_delays o b r x p with Some v => v | None => 0 end)).
    intros p Hp. assert (OP := OUT ph o O p).
    assert (LH := PATHS ph). destruct (cir _ _ _ _ _ _ _ _ _) as [h dl] in OP, LH. destruct LH as (LH & LT & _ & _). cbn [fst snd] in OP.
    unfold link_delay, link_coefficient, on_link, S_Convert.path_delay in *.
    split; [destruct (OP 0%nat) as [Q _] | intros t; destruct (OP t) as [_ Q]]; destruct (String.eqb (sc_dir sc) "uplink"); rewrite Q.
    1,2: destruct (nth_error dl p) eqn:NE; [reflexivity | apply nth_error_None in NE; lia].
    all: destruct (nth_error h p) eqn:NE; [reflexivity | apply nth_error_None in NE; lia]. }
  intros F E Dm A TAU FO UP DP TEN.
  set (up := String.eqb (sc_dir sc) "uplink") in *.
  set (GG := if up then swap_gen (down_arrays sc ua ba) else down_arrays sc ua ba) in *.
  set (L0 := down_link sc (c_st c) vel uo bo bs g los (cd_dir d) b s u) in *.
  set (LL := if up then swap_topo L0 else L0) in *.
  set (YY := if up then swap_rays y else y) in *.
  set (rx := if up then is else iu) in *. set (tx := if up then iu else is) in *.
  set (K := l_k (lsps b s u)) in *. set (n := Nat.max n1 n2) in *.
  set (gain := (if sc_pathloss sc then Rpower 10 (- pl b s u / 10) else 1) * (if sc_shadow sc then l_sf (lsps b s u) else 1)) in *.
  set (x := fun ph i t => nth i (fst (cir srt srtd GG LL K YY fs cds ph)) (fun _ _ _ => c0) rx tx t).
  assert (FO' : fields_of GG LL YY (length (r_delays YY)) F) by (rewrite LD; exact FO).
  assert (UP' : uniform_phases (length (r_delays YY)) E) by (rewrite LD; exact UP).
  destruct (C83_moments_l srt srtd j1 prx ptx GG LL K YY fs cds F E V VD PRX PTX FC KP ltac:(congruence) ltac:(lia)
     (fun k _ => PW k) (fun k q _ _ => XP k q) FO' UP') as (Lp & _ & LLp & LC & M).
  cbv zeta in M.
  assert (SUB : cg_sub GG = true) by (unfold GG; destruct up; reflexivity).
  rewrite SUB, LD in LLp.
  (* the paths of the tensors *)
  assert (TH : forall ph p t, (p < n + 4)%nat ->
     on_link (sc_dir sc) (fun b r ra x xa => A ph b r ra x xa p t) b s is u iu = cmul (creal factor) (x ph p t)).
  { intros ph p t Hp. destruct (OKc ph) as [o O]. destruct (TEN ph o O p Hp) as [_ T]. specialize (T t).
    destruct (OUT ph o O p t) as [_ Q]. rewrite Q in T. unfold x.
    assert (LH : length (fst (cir srt srtd GG LL K YY fs cds ph)) = (n + 4)%nat)
      by (generalize (PATHS ph); destruct (cir srt srtd GG LL K YY fs cds ph); cbn [fst]; tauto).
    set (h := fst (cir srt srtd GG LL K YY fs cds ph)) in *.
    destruct (nth_error h p) as [hp|] eqn:NE; [|apply nth_error_None in NE; lia].
    rewrite (nth_error_nth _ _ _ NE). cbn [option_map] in T. injection T as T. rewrite <- T. ring. }
  set (tl := snd (cir srt srtd GG LL K YY fs cds (fun _ _ _ => 0))).
  assert (TL : forall ph, snd (cir srt srtd GG LL K YY fs cds ph) = tl).
  { intros ph. unfold tl. rewrite (proj1 (LC ph)), (proj1 (LC (fun _ _ _ => 0))). reflexivity. }
  assert (TD : forall ph p, (p < n + 4)%nat ->
     on_link (sc_dir sc) (fun b r ra x xa => S_Convert.path_delay (TAU ph) b r ra x xa p) b s is u iu = nth p tl 0).
  { intros ph p Hp. destruct (OKc ph) as [o O]. destruct (TEN ph o O p Hp) as [T _].
    destruct (OUT ph o O p 0%nat) as [Q _]. rewrite Q, TL in T. rewrite (nth_error_nth _ _ _ T). reflexivity. }
  exists tl. assert (P0 := PATHS (fun _ _ _ => 0)).
  split; [unfold tl; revert P0; destruct (cir srt srtd GG LL K YY fs cds (fun _ _ _ => 0)); cbn [snd]; tauto|].
  split; [unfold tl; revert P0; destruct (cir srt srtd GG LL K YY fs cds (fun _ _ _ => 0)); cbn [snd]; tauto|].
  split; [exact TD|].
  assert (SC : forall i j t t', mean_product E (fun ph => cmul (creal factor) (x ph i t)) (fun ph => cmul (creal factor) (x ph j t')) =
     cmul (creal gain) (mean_product E (fun ph => x ph i t) (fun ph => x ph j t'))).
  { intros i j t t'. unfold mean_product. rewrite <- (up_scale _ _ UP). apply (up_ext _ _ UP). intros ph.
    rewrite cconj_mul, <- FF. apply cplx_eq; cbn; ring. }
  assert (RS : forall k t ph, (k < length fr)%nat ->
     on_link (sc_dir sc) (fun b r ra x xa => cir_to_ofdm Dm fr (A ph) (TAU ph) false b r ra x xa t k) b s is u iu =
     csumN (n + 4) (fun p => cmul (cmul (creal factor) (x ph p t)) (turn (nth k fr 0 * nth p tl 0)))).
  { intros k t ph Hk. rewrite on_link_response by exact Hk. rewrite DP. apply csumN_ext. intros p Hp.
    rewrite TH, TD by exact Hp. reflexivity. }
  assert (CORR : forall k k' t t', (k < length fr)%nat -> (k' < length fr)%nat ->
    mean_product E (fun ph => on_link (sc_dir sc) (fun b r ra x xa => cir_to_ofdm Dm fr (A ph) (TAU ph) false b r ra x xa t k) b s is u iu)
      (fun ph => on_link (sc_dir sc) (fun b r ra x xa => cir_to_ofdm Dm fr (A ph) (TAU ph) false b r ra x xa t' k') b s is u iu) =
    csumN (n + 4) (fun p => cmul (cmul (creal gain) (mean_product E (fun ph => x ph p t) (fun ph => x ph p t'))) (turn ((nth k fr 0 - nth k' fr 0) * nth p tl 0)))).
  { intros k k' t t' Hk Hk'.
    transitivity (mean_product E (fun ph => csumN (n + 4) (fun p => cmul (cmul (creal factor) (x ph p t)) (turn (nth k fr 0 * nth p tl 0))))
       (fun ph => csumN (n + 4) (fun p => cmul (cmul (creal factor) (x ph p t')) (turn (nth k' fr 0 * nth p tl 0))))).
    { unfold mean_product. apply (up_ext _ _ UP). intros ph. rewrite !RS by assumption. reflexivity. }
    rewrite (uncorrelated_paths n E (n + 4) (fun i ph => cmul (creal factor) (x ph i t)) (fun i ph => cmul (creal factor) (x ph i t'))
      (fun i => nth i tl 0) _ _ UP).
    - apply csumN_ext. intros p _. rewrite SC. reflexivity.
    - intros i j Hi' Hj N. rewrite SC. unfold x.
      destruct (M i j rx tx t rx tx t' ltac:(lia) ltac:(lia) RX TX RX TX) as [_ Z]. rewrite Z.
      destruct (Nat.eqb_spec i j) as [Q|_]; [contradiction|].
      destruct (Nat.eqb_spec i 0) as [->|Q]; [|rewrite andb_false_r; apply cplx_eq; cbn; ring].
      destruct (Nat.eqb_spec j 0) as [->|Q']; [contradiction|].
      replace (lt_los LL && false) with false by (symmetry; apply andb_false_r). apply cplx_eq; cbn; ring. }
  intros k k' t t' Hk Hk'. split.
  - transitivity (mean_product E (fun ph => on_link (sc_dir sc) (fun b r ra x xa => cir_to_ofdm Dm fr (A ph) (TAU ph) false b r ra x xa t k) b s is u iu)
      (fun ph => on_link (sc_dir sc) (fun b r ra x xa => cir_to_ofdm Dm fr (A ph) (TAU ph) false b r ra x xa t k) b s is u iu)).
    { unfold mean_product. apply (up_ext _ _ UP). intros ph. rewrite cmul_conj. reflexivity. }
    rewrite CORR by assumption.
    rewrite (csumN_ext _ _ (fun p => cmul (creal gain) (mean_product E (fun ph => x ph p t) (fun ph => x ph p t)))).
    2: { intros p _. replace ((nth k fr 0 - nth k fr 0) * nth p tl 0) with 0 by ring. unfold turn. rewrite Rmult_0_r, Ropp_0, cexpi_0. ring. }
    rewrite csumN_mul_l.
    assert (PWR := C83_power_l srt srtd j1 prx ptx GG LL K YY fs cds F E rx tx t V VD PRX PTX FC KP ltac:(congruence) ltac:(lia)
      (fun k _ => PW k) (fun k q _ _ => XP k q) FO' UP' RX TX). cbv zeta in PWR.
    rewrite LD, LOS in PWR. fold (scattered_power YY F n rx tx) in PWR.
    transitivity (cmul (creal gain) (E (fun ph => creal (Rsum (map (fun h : coeff => cnorm2 (h rx tx t)) (fst (cir srt srtd GG LL K YY fs cds ph))))))).
    + f_equal. unfold csumN. rewrite <- (up_sum n E UP (fun p ph => cmul (x ph p t) (cconj (x ph p t)))). apply (up_ext _ _ UP). intros ph.
      rewrite <- csum_creal. rewrite <- (map_nth_seq (fun h : coeff => creal (cnorm2 (h rx tx t))) _ (fun _ _ _ => c0)).
      rewrite (proj2 (LC ph)), LLp. f_equal. apply map_ext. intros i. unfold x. rewrite cmul_conj. reflexivity.
    + rewrite PWR. unfold ricean. destruct (los b s u); apply cplx_eq; cbn; ring.
  - rewrite CORR by assumption. apply csumN_ext. intros p Hp. f_equal. rewrite <- SC. unfold mean_product. apply (up_ext _ _ UP).
    intros ph. rewrite !TH by exact Hp. reflexivity.
Qed.
