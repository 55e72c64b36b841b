(* Witness histories for channel calls. *)
From Coq Require Import Reals String List Bool Arith Lia Lra ZArith QArith Qreals Permutation Sorting.Sorted.
From Verif Require Import M_Base L_Base M_Params S_Config L_Params L_Config M_Geometry M_Pathloss M_Scenario
  M_Lsp S_Linear L_Linear S_Lsp S_Topology L_Pathloss L_Trig L_Geometry L_Scenario L_Fresh L_Topology L_Corr L_Lsp
  S_Pathloss L_Loss M_Rays S_Rays L_Rays L_RaysEx M_Antenna M_Cplx M_Coeff S_Coeff L_Rotation L_Coeff M_Channel S_Channel L_Chol L_Channel L_Link.
Import ListNotations.
Open Scope string_scope.
Open Scope list_scope.
Open Scope R_scope.

Definition neg (h : coeff) : coeff := fun u s t => copp (h u s t).
Definition shifted (ph : nat -> nat -> nat -> R) c r k := ph c r k + PI.

Lemma cexpi_PI x : cexpi (x + PI) = copp (cexpi x).
Proof. apply cplx_eq; cbn; [rewrite neg_cos|rewrite neg_sin]; reflexivity. Qed.

Lemma nlos_shifted g T y time ph : nlos_ray g T y time (shifted ph) = (fun c r => neg (nlos_ray g T y time ph c r)).
Proof.
  apply FunctionalExtensionality.functional_extensionality; intros c. apply FunctionalExtensionality.functional_extensionality; intros r.
  apply FunctionalExtensionality.functional_extensionality; intros u. apply FunctionalExtensionality.functional_extensionality; intros s.
  apply FunctionalExtensionality.functional_extensionality; intros t. unfold neg, nlos_ray, shifted. cbv zeta.
  assert (E : field_entry g T (r_aoa y c r) (r_aod y c r) (r_zoa y c r) (r_zod y c r)
     (with_faraday g T (phase_matrix (r_xpr y c r) (fun k => ph c r k + PI))) u s =
     copp (field_entry g T (r_aoa y c r) (r_aod y c r) (r_zoa y c r) (r_zod y c r)
     (with_faraday g T (phase_matrix (r_xpr y c r) (ph c r))) u s)).
  { unfold field_entry, with_faraday, phase_matrix. cbv zeta. rewrite !cexpi_PI.
    destruct (Rleb 600000 (lt_bs_height T)); unfold cmat_vec, cmat_mul; cbn [m00 m01 m10 m11 v0 v1]; ring. }
  rewrite E. ring.
Qed.

Lemma csum_neg l : csum (map copp l) = copp (csum l).
Proof.
  induction l as [|x l IH]; [apply cplx_eq; cbn; ring|].
  cbn [map]. change (csum (copp x :: map copp l)) with (cadd (copp x) (csum (map copp l))).
  change (csum (x :: l)) with (cadd x (csum l)). rewrite IH. ring.
Qed.

Lemma map_neg_sums h ind l : map (sum_rays (fun c r => neg (h c r)) ind) l = map neg (map (sum_rays h ind) l).
Proof.
  rewrite map_map. apply map_ext. intros c.
  apply FunctionalExtensionality.functional_extensionality; intros u. apply FunctionalExtensionality.functional_extensionality; intros s.
  apply FunctionalExtensionality.functional_extensionality; intros t. unfold sum_rays, neg.
  rewrite <- csum_neg, map_map. reflexivity.
Qed.

Lemma neg_zero : neg (fun _ _ _ => c0) = (fun _ _ _ => c0).
Proof.
  apply FunctionalExtensionality.functional_extensionality; intros u. apply FunctionalExtensionality.functional_extensionality; intros s.
  apply FunctionalExtensionality.functional_extensionality; intros t. apply cplx_eq; cbn; ring.
Qed.

Lemma reduce_neg srt srtd sub h powers delays cds :
  fst (reduce_nlos srt srtd sub (fun c r => neg (h c r)) powers delays cds) =
  map neg (fst (reduce_nlos srt srtd sub h powers delays cds)).
Proof.
  unfold reduce_nlos. destruct sub.
  - rewrite !map_neg_sums, <- !map_app. cbn [fst snd]. etransitivity; [|symmetry; apply map_map]. apply map_ext. intros k.
    rewrite <- neg_zero at 1. apply (map_nth neg).
  - rewrite map_neg_sums. cbn [fst snd]. etransitivity; [|symmetry; apply map_map]. apply map_ext. intros k.
    rewrite <- neg_zero at 1. apply (map_nth neg).
Qed.

(* vertical omni antennas without rotation *)
Lemma omni_field th ph k : exists s, s * s = 1 /\ antenna_field omni_array (V3 0 0 0) th ph k = (s, 0).
Proof.
  unfold antenna_field. destruct (gcs_to_lcs (V3 0 0 0) th ph) as [a b]. cbn [pa_pol1 pa_pol2 omni_array].
  unfold l2g_response. cbv zeta. unfold field. cbn [el_pattern el_slant omni_v fst snd].
  assert (S : sin (compute_psi (V3 0 0 0) th ph) = 0).
  { unfold compute_psi, psi_imag. cbn [vx vy vz]. rewrite sin_0.
    replace (0 * cos (ph - 0) + 0 * cos 0 * sin (ph - 0)) with 0 by ring.
    unfold atan2. destruct (Rlt_dec 0 (psi_real (V3 0 0 0) th ph)) as [_|_].
    - unfold Rdiv. rewrite Rmult_0_l, atan_0. apply sin_0.
    - repeat match goal with |- context [if ?b then _ else _] => destruct b end; unfold Rdiv; rewrite ?Rmult_0_l, ?atan_0;
      try apply sin_0; try lra;
      rewrite ?Rplus_0_l, ?Rminus_0_l, ?sin_neg, ?sin_PI; lra. }
  exists (cos (compute_psi (V3 0 0 0) th ph)). rewrite S, sin_0, cos_0, sqrt_1. split.
  - assert (T := sin2_cos2 (compute_psi (V3 0 0 0) th ph)). unfold Rsqr in T. rewrite S in T. lra.
  - f_equal; ring.
Qed.

Lemma faraday_small fc : in_S_band fc \/ in_Ka_band fc -> 0 < cos (108 / sq (fc / 1e9) / 180 * PI).
Proof.
  intros H. assert (F : 1.9 <= fc / 1e9).
  { apply Rmult_le_reg_r with (1e9); [lra|]. unfold Rdiv. rewrite Rmult_assoc, Rinv_l by lra. unfold in_S_band, in_Ka_band in H. lra. }
  assert (Q : 0 < sq (fc / 1e9)) by (unfold sq; nra). assert (P := PI_RGT_0).
  assert (0 < / sq (fc / 1e9) <= / 3).
  { split; [apply Rinv_0_lt_compat, Q|]. apply Rinv_le_contravar; [lra|]. unfold sq; nra. }
  apply cos_gt_0; unfold Rdiv; nra.
Qed.

Lemma omni_los g T time : cg_tx g = omni_array -> cg_rx g = omni_array -> lt_tx_ori T = V3 0 0 0 -> lt_rx_ori T = V3 0 0 0 ->
  in_S_band (cg_fc g) \/ in_Ka_band (cg_fc g) -> los_ray g T time 0%nat 0%nat 0%nat <> c0.
Proof.
  intros E1 E2 E3 E4 HB Z.
  destruct (C35_applied_l g T ex_rays time (fun _ _ _ => 0) 0%nat 0%nat 0%nat 0%nat 0%nat) as [_ (k & K & E)].
  rewrite Z in E. assert (N : cnorm2 c0 = 0) by (unfold cnorm2, c0; cbn; ring). rewrite E, cnorm2_mul, K in N.
  rewrite E1, E2, E3, E4 in N.
  destruct (omni_field (lt_zoa T) (lt_aoa T) 0) as (s1 & S1 & F1). destruct (omni_field (lt_zod T) (lt_aod T) 0) as (s2 & S2 & F2).
  rewrite F1, F2 in N. assert (C := faraday_small _ HB). cbn [fst snd m00 m01 m10 m11] in N.
  set (a := 108 / sq (cg_fc g / 1e9) / 180 * PI) in *.
  destruct (Rleb 600000 (lt_bs_height T)); cbn [fst snd] in N; unfold cnorm2, cadd, cmul, creal, c0, c1 in N; cbn in N.
  - replace (1 * _) with ((s1 * s1) * (s2 * s2) * (cos a * cos a)) in N by ring. rewrite S1, S2 in N. nra.
  - replace (1 * _) with ((s1 * s1) * (s2 * s2)) in N by ring. rewrite S1, S2 in N. lra.
Qed.

Lemma sumsq0 x y : x * x + y * y = 0 -> x = 0 /\ y = 0.
Proof. intros H. assert (0 <= x * x) by nra. assert (0 <= y * y) by nra. split; nra. Qed.

(* with a direct path, one of two opposite choices of the scattered phases gives a non-zero first coefficient *)
Lemma first_nonzero srt srtd g T k y fs cds ph : valid_argsort srt -> valid_argsort_desc srtd ->
  cg_sub g = true -> lt_los T = true -> 0 < k ->
  length (r_powers y) = length (r_delays y) -> (2 <= length (r_delays y))%nat ->
  los_ray g T (fun i => INR i / fs) 0%nat 0%nat 0%nat <> c0 ->
  exists ph' h, (ph' = ph \/ ph' = shifted ph) /\ nth_error (fst (cir srt srtd g T k y fs cds ph')) 0 = Some h /\ h 0%nat 0%nat 0%nat <> c0.
Proof.
  intros V VD Sb Lo Hk EL N2 NZ.
  assert (HL := C28_l srt srtd g (with_los false T) k y fs cds ph V VD Sb eq_refl EL N2).
  unfold cir, step_11 in *. rewrite Lo. cbn [lt_los with_los] in HL.
  change (nlos_ray g (with_los false T) y (fun i => INR i / fs) ph) with (nlos_ray g T y (fun i => INR i / fs) ph) in HL.
  assert (RN := reduce_neg srt srtd (cg_sub g) (nlos_ray g T y (fun i => INR i / fs) ph) (r_powers y) (r_delays y) cds).
  rewrite <- nlos_shifted in RN.
  destruct (reduce_nlos srt srtd (cg_sub g) (nlos_ray g T y (fun i => INR i / fs) ph) (r_powers y) (r_delays y) cds) as [h dl] eqn:E1.
  destruct (reduce_nlos srt srtd (cg_sub g) (nlos_ray g T y (fun i => INR i / fs) (shifted ph)) (r_powers y) (r_delays y) cds) as [h' dl'] eqn:E2.
  cbn [fst] in RN. subst h'. destruct HL as (HL & _). destruct h as [|h0 rest]; [cbn in HL; lia|].
  set (L := los_ray g T (fun i => INR i / fs)) in *.
  set (a := sqrt (k / (k + 1))). set (b := sqrt (1 / (k + 1))).
  assert (Pa : 0 < a) by (apply sqrt_lt_R0, Rdiv_lt_0_compat; lra).
  set (X := add_coeff (scale_coeff a L) (scale_coeff b h0)). set (Y := add_coeff (scale_coeff a L) (scale_coeff b (neg h0))).
  assert (D : X 0%nat 0%nat 0%nat <> c0 \/ Y 0%nat 0%nat 0%nat <> c0).
  { destruct (Req_dec (cnorm2 (X 0%nat 0%nat 0%nat)) 0) as [ZX | ZX].
    2:{ left. intros Q. rewrite Q in ZX. apply ZX. unfold cnorm2, c0; cbn; ring. }
    destruct (Req_dec (cnorm2 (Y 0%nat 0%nat 0%nat)) 0) as [ZY | ZY].
    2:{ right. intros Q. rewrite Q in ZY. apply ZY. unfold cnorm2, c0; cbn; ring. }
    exfalso. apply NZ. unfold X, Y, add_coeff, scale_coeff, neg in ZX, ZY. destruct (L 0%nat 0%nat 0%nat) as [lr li]. destruct (h0 0%nat 0%nat 0%nat) as [hr hi].
    unfold cnorm2, cadd, cmul, creal, copp in ZX, ZY. cbn in ZX, ZY.
    destruct (sumsq0 _ _ ZX) as [XR XI]. destruct (sumsq0 _ _ ZY) as [YR YI].
    assert (A1 : lr * a = 0) by lra. assert (A2 : li * a = 0) by lra.
    apply cplx_eq; cbn; [destruct (Rmult_integral _ _ A1)|destruct (Rmult_integral _ _ A2)]; lra. }
  destruct D as [D | D].
  - exists ph, X. split; [left; reflexivity|]. rewrite E1. split; [reflexivity|exact D].
  - exists (shifted ph), Y. split; [right; reflexivity|]. rewrite E2. split; [reflexivity|exact D].
Qed.

Lemma omni_link srt srtd sc : valid_argsort srt -> valid_argsort_desc srtd -> constructed sc ->
  exists z d c1 o1 los h,
    chan_set_topology sc false (chan_init sc) (one_ut (V3 600000 0 0) false (Some true)) no_draws z = (c1, Ok tt) /\
    s_los (c_st c1) = Some los /\ los 0%nat 0%nat 0%nat = true /\
    chan_call srt srtd sc omni_array omni_array false c1 1e6 d = Ok o1 /\
    link_coefficient (sc_dir sc) o1 0 0 0 0 0 0 0 = Some h /\ h <> c0.
Proof.
  intros V VD Hc. assert (Ha := constructed_accepted sc Hc).
  set (a := one_ut (V3 600000 0 0) false (Some true)). set (z0 := fun _ _ _ _ : nat => 0).
  destruct (one_ut_call sc (V3 600000 0 0) false (Some true) no_draws Hc) as (st' & ST & U & B & I). fold a in ST.
  assert (OKz : forall z, snd (chan_set_topology sc false (chan_init sc) a no_draws z) = Ok tt).
  { intros z. destruct (C68_l sc false (chan_init sc) a no_draws z st' Hc ST) as (ut & ind & los & A1 & _ & _ & Iff).
    apply Iff. assert (ut = t1 (V3 600000 0 0)) by congruence. subst ut. cbn [t1 t_num t_batch]. intros; lia. }
  assert (Ch : changes_topology a) by (left; discriminate).
  destruct (chan_set_topology sc false (chan_init sc) a no_draws z0) as [c0' r0] eqn:E0.
  assert (R0 := OKz z0). rewrite E0 in R0. cbn [snd] in R0. subst r0.
  destruct (change_ok _ _ _ _ _ _ _ E0 Ch) as (ST0 & ut & bs & Cm & Sm & Lx & Ls & mask & A1 & A2 & A3 & A4 & A5 & A6 & _).
  assert (ST' : c_st c0' = st') by (change (channel_args a) with a in ST0; change (c_st (chan_init sc)) with (init_state sc) in ST0; congruence).
  rewrite ST' in *.
  assert (ut = t1 (V3 600000 0 0)) by congruence. subst ut. assert (bs = t1 (V3 0 0 600000)) by congruence. subst bs.
  cbn [t1 t_num t_batch] in A5, A6.
  destruct (C19_l _ _ _ _ _ Hc ST) as (los1 & Cm' & _ & HC & P19). assert (Cm' = Cm) by congruence. subst Cm'.
  destruct (C20_l _ _ _ _ _ Hc ST) as (ut2 & ind2 & los2 & Sm' & U' & _ & _ & HS & P20). assert (Sm' = Sm) by congruence. subst Sm'.
  assert (ut2 = t1 (V3 600000 0 0)) by congruence. subst ut2. cbn [t1 t_num] in P20.
  assert (HLx : is_cholesky 7 (Cm 0%nat 0%nat 0%nat) (Lx 0%nat 0%nat 0%nat)).
  { destruct (cholesky_all_ok 1 1 1 7 Cm) as [_ Q]; [intros b s k _ _ _; destruct (P19 b s k) as [Q _]; exact Q|].
    apply (Q Lx A5); lia. }
  assert (HLs : is_cholesky 1 (Sm 0%nat 0%nat 4%nat) (Ls 0%nat 0%nat 4%nat)).
  { destruct (cholesky_all_ok 1 1 7 1 Sm) as [_ Q].
    - intros b s k _ _ Hk. destruct (lsp_index_of k Hk) as (X & HX). destruct (P20 b s X k HX) as [Q _]. exact Q.
    - apply (Q Ls A6); lia. }
  destruct (k_reached sc _ _ st' Cm Sm Lx Ls 1 Hc ST HC HS HLx HLs Rlt_0_1) as (z & lsps & Z & K & DS).
  destruct (chan_set_topology sc false (chan_init sc) a no_draws z) as [c1 r1] eqn:E1.
  assert (R1 := OKz z). rewrite E1 in R1. cbn [snd] in R1. subst r1.
  destruct (change_ok _ _ _ _ _ _ _ E1 Ch) as (ST1 & ut1 & bs1 & Cm1 & Sm1 & Lx1 & Ls1 & mask1 & B1 & B2 & B3 & B4 & B5 & B6 & B7 & _ & _ & B8 & B9).
  assert (ST1' : c_st c1 = st') by (change (channel_args a) with a in ST1; change (c_st (chan_init sc)) with (init_state sc) in ST1; congruence).
  rewrite ST1' in *. assert (ut1 = t1 (V3 600000 0 0)) by congruence. subst ut1. assert (bs1 = t1 (V3 0 0 600000)) by congruence. subst bs1.
  cbn [t1 t_num t_batch] in B5, B6, B9. assert (Cm1 = Cm) by congruence. assert (Sm1 = Sm) by congruence. subst Cm1 Sm1.
  assert (Lx1 = Lx) by congruence. assert (Ls1 = Ls) by congruence. subst Lx1 Ls1.
  destruct (B9 eq_refl) as (l & L1 & L2). assert (l = lsps) by congruence. subst l.
  destruct (one_ut_los sc _ true _ st' Hc ST) as (los & LO1 & LO2).
  set (dd := fun ph : nat -> nat -> nat -> R => {| cd_lsp := z0; cd_rays := plain_draws (fun _ => / 2); cd_dir := fun _ => 0; cd_phase := fun _ _ _ => ph |}).
  assert (CALL : forall ph, exists out, chan_call srt srtd sc omni_array omni_array false c1 1e6 (dd ph) = Ok out).
  { intros ph. assert (S : settled sc false [SetTopology a no_draws z] a no_draws z).
    { exists [], []. split; [reflexivity|]. split; [exact Ch|]. split; [apply OKz|intros ? ? ? []]. }
    destruct (call_defined srt srtd omni_array omni_array sc false _ _ _ _ 1e6 (dd ph) Hc S) as [out O].
    exists out. cbn [chan_run fold_left chan_step] in O. rewrite E1 in O. exact O. }
  destruct (CALL (fun _ _ _ => 0)) as [o0 O0].
  destruct (C31_axes_l _ _ _ _ _ _ _ _ _ _ O0) as (lsps' & mask' & rr & vel & uo & bo & bs & g & los' & ls & pl & D1 & D2 & D3 & D4 & D5 & D6 & D7 & D8 & D9 & D10 & D11 & D12 & _).
  rewrite ST1' in *. cbn [used_lsps] in D1. assert (lsps' = lsps) by congruence. assert (mask' = mask1) by congruence. subst lsps' mask'.
  assert (los' = los) by congruence. subst los'. cbn [dd cd_rays] in D3.
  assert (KK : los 0%nat 0%nat 0%nat = true -> Rpower 10 (- 6.3) <= l_k (lsps 0%nat 0%nat 0%nat)).
  { intros _. rewrite K. rewrite <- (Rpower_O 10) by lra. apply Rle_Rpower; lra. }
  destruct (C23_l _ _ _ _ _ _ srt lsps _ rr Hc ST B7 D3) as (los3 & ind3 & n1 & n2 & F1 & F2 & F3 & F4).
  assert (los3 = los) by congruence. subst los3. assert (ind3 = T 1 1 (fun _ _ => false)) by congruence. subst ind3.
  destruct (F4 0%nat 0%nat 0%nat eq_refl KK) as (y & Y & LP & _).
  destruct (C22_l _ _ _ _ _ _ srt lsps _ rr Hc ST B7 D3) as (los4 & m1 & m2 & G1 & G2 & G3).
  assert (los4 = los) by congruence. subst los4.
  destruct (G3 0%nat 0%nat 0%nat y Y KK) as (LD & _).
  assert (EM : m1 = n1 /\ m2 = n2).
  { assert (Q1 := documented_value_fun _ _ _ _ _ _ _ _ (F3 true) (G2 true)). assert (Q2 := documented_value_fun _ _ _ _ _ _ _ _ (F3 false) (G2 false)).
    injection Q1 as Q1. injection Q2 as Q2. apply INR_eq in Q1, Q2. auto. }
  destruct EM as [-> ->].
  assert (N2 : (2 <= Nat.max n1 n2)%nat).
  { destruct (C21_l _ _ _ _ _ Hc ST) as (los5 & ind5 & mask5 & H1 & H2 & H3 & H4).
    destruct (H4 0%nat 0%nat 0%nat) as [H5 _]. assert (ind5 = T 1 1 (fun _ _ => false)) by congruence. subst ind5.
    destruct (H5 eq_refl) as (n & Hn & Hb & _). assert (los5 = los) by congruence. subst los5. rewrite LO2 in Hn.
    assert (Q1 := documented_value_fun _ _ _ _ _ _ _ _ (F3 true) Hn). injection Q1 as Q1. apply INR_eq in Q1. lia. }
  set (L := down_link sc st' vel uo bo bs g los (fun _ => 0) 0%nat 0%nat 0%nat).
  set (G := down_arrays sc omni_array omni_array).
  assert (UO : t_at uo 0%nat 0%nat = V3 0 0 0 /\ t_at bo 0%nat 0%nat = V3 0 0 0).
  { destruct (step_cases _ _ _ _ _ _ Ha ST) as [(_ & _ & [m Hm]) | (_ & _ & II & _)]; [discriminate|].
    destruct II as (_ & _ & I3 & I4 & _). cbn in I3, I4. assert (uo = t1 (V3 0 0 0)) by congruence. assert (bo = t1 (V3 0 0 0)) by congruence. subst. split; reflexivity. }
  destruct UO as [UO BO].
  assert (NZd : los_ray G L (fun i => INR i / 1e6) 0%nat 0%nat 0%nat <> c0)
    by (apply omni_los; try reflexivity; try assumption; exact (ac_band _ Ha)).
  assert (NZu : los_ray (swap_gen G) (swap_topo L) (fun i => INR i / 1e6) 0%nat 0%nat 0%nat <> c0)
    by (apply omni_los; try reflexivity; try assumption; exact (ac_band _ Ha)).
  set (cDS := lp_cDS (ls_col ls (los 0%nat 0%nat 0%nat)) * 1e-9).
  assert (K0 : 0 < l_k (lsps 0%nat 0%nat 0%nat)) by lra.
  assert (PH : exists ph h, (if String.eqb (sc_dir sc) "uplink"
     then nth_error (fst (cir srt srtd (swap_gen G) (swap_topo L) (l_k (lsps 0%nat 0%nat 0%nat)) (swap_rays y) 1e6 cDS ph)) 0
     else nth_error (fst (cir srt srtd G L (l_k (lsps 0%nat 0%nat 0%nat)) y 1e6 cDS ph)) 0) = Some h /\ h 0%nat 0%nat 0%nat <> c0).
  { destruct (String.eqb (sc_dir sc) "uplink").
    - destruct (first_nonzero srt srtd (swap_gen G) (swap_topo L) (l_k (lsps 0%nat 0%nat 0%nat)) (swap_rays y) 1e6 cDS (fun _ _ _ => 0) V VD eq_refl LO2 K0)
        as (ph & h & _ & H1 & H2); [cbn [swap_rays r_powers r_delays]; congruence|cbn [swap_rays r_delays]; lia|exact NZu|eauto].
    - destruct (first_nonzero srt srtd G L (l_k (lsps 0%nat 0%nat 0%nat)) y 1e6 cDS (fun _ _ _ => 0) V VD eq_refl LO2 K0)
        as (ph & h & _ & H1 & H2); [congruence|lia|exact NZd|eauto]. }
  destruct PH as (ph & h & PH1 & PH2).
  destruct (CALL ph) as [o1 O1].
  destruct (C31_axes_l _ _ _ _ _ _ _ _ _ _ O1) as (lsps' & mask' & rr' & vel' & uo' & bo' & bs' & g' & los' & ls' & pl' & W1 & W2 & W3 & W4 & W5 & W6 & W7 & W8 & W9 & W10 & W11 & W12 & W13).
  rewrite ST1' in *. cbn [used_lsps] in W1. assert (lsps' = lsps) by congruence. assert (mask' = mask1) by congruence. subst lsps' mask'.
  cbn [dd cd_rays] in W3. assert (rr' = rr) by congruence. assert (vel' = vel) by congruence. assert (uo' = uo) by congruence.
  assert (bo' = bo) by congruence. assert (bs' = bs) by congruence. assert (g' = g) by congruence. assert (los' = los) by congruence.
  assert (ls' = ls) by congruence. subst rr' vel' uo' bo' bs' g' los' ls'.
  specialize (W13 0%nat 0%nat 0%nat). cbv zeta in W13. rewrite Y in W13. destruct (W13 0%nat 0%nat 0%nat 0%nat) as [_ W].
  cbn [dd cd_dir cd_phase] in W. fold L G cDS in W.
  set (x := (if sc_pathloss sc then Rpower 10 (- pl' 0%nat 0%nat 0%nat / 20) else 1) * (if sc_shadow sc then sqrt (l_sf (lsps 0%nat 0%nat 0%nat)) else 1)) in W.
  assert (HX : 0 < x).
  { apply Rmult_lt_0_compat.
    - destruct (sc_pathloss sc); [apply exp_pos|lra].
    - destruct (sc_shadow sc); [|lra]. apply sqrt_lt_R0.
      unfold sample_lsp in Z. destruct (s_lsp st') as [l9|] eqn:EL9; [|discriminate]. injection Z as <-. cbn [make_lsp l_sf].
      unfold lsp_value. destruct (ls_mean _ _ _ _ _) eqn:EE; [|apply pow10_pos].
      exfalso. destruct (make_ready _ _ _ _ _ Hc ST) as (ls9 & los9 & g9 & ind9 & bs9 & mask9 & RD).
      assert (X1 := rd_mean _ _ _ _ _ _ _ _ RD 0%nat 0%nat 0%nat 3%nat). assert (X2 := rd_ls _ _ _ _ _ _ _ _ RD).
      assert (ls9 = l9) by congruence. subst ls9. rewrite EE in X1. discriminate X1. }
  exists z, (dd ph), c1, o1, los, (cmul (h 0%nat 0%nat 0%nat) (creal x)).
  split; [exact E1|]. split; [rewrite ST1'; exact LO1|]. split; [exact LO2|]. split; [exact O1|].
  split.
  - rewrite W. destruct (String.eqb (sc_dir sc) "uplink"); rewrite PH1; reflexivity.
  - intros Q. apply PH2. assert (N : cnorm2 (cmul (h 0%nat 0%nat 0%nat) (creal x)) = 0) by (rewrite Q; unfold cnorm2, c0; cbn; ring).
    rewrite cnorm2_mul, cnorm2_real in N. apply Rmult_integral in N. destruct N as [N|N]; [|nra].
    destruct (h 0%nat 0%nat 0%nat) as [hr hi]. unfold cnorm2 in N. cbn in N. destruct (sumsq0 hr hi N) as [-> ->]. reflexivity.
Qed.

Lemma C33_refuted_l srt srtd sc : valid_argsort srt -> valid_argsort_desc srtd -> constructed sc ->
  sc_pathloss sc = true -> sc_shadow sc = false ->
  exists a z d fs dr dr' c1 c2 o1 o2 los,
    dr_los dr' = dr_los dr /\ dr_indoor dr' = dr_indoor dr /\
    chan_set_topology sc false (chan_init sc) a dr z = (c1, Ok tt) /\ chan_set_topology sc false (chan_init sc) a dr' z = (c2, Ok tt) /\
    s_los (c_st c1) = Some los /\ s_los (c_st c2) = Some los /\
    chan_call srt srtd sc omni_array omni_array false c1 fs d = Ok o1 /\
    chan_call srt srtd sc omni_array omni_array false c2 fs d = Ok o2 /\
    exists h1 h2, link_coefficient (sc_dir sc) o1 0 0 0 0 0 0 0 = Some h1 /\ link_coefficient (sc_dir sc) o2 0 0 0 0 0 0 0 = Some h2 /\
      cnorm2 h1 <> 0 /\ cnorm2 h2 < cnorm2 h1.
Proof.
  intros V VD Hc Hp Hs. destruct (omni_link srt srtd sc V VD Hc) as (z & d & c1 & o1 & los & h & E1 & LO & LT & O1 & C & NZ).
  assert (Ch : changes_topology (one_ut (V3 600000 0 0) false (Some true))) by (left; discriminate).
  destruct (C33_hidden_l srt srtd omni_array omni_array sc false _ _ _ z c1 1e6 d o1 Hc Hp Hs Ch E1 O1 (fun _ _ _ => 1) (fun _ _ _ => 1))
    as (c2 & o2 & los' & sl & sn & E2 & O2 & LO' & (_ & _ & SP & _) & Q).
  assert (los' = los) by congruence. subst los'.
  exists (one_ut (V3 600000 0 0) false (Some true)), z, d, 1e6, no_draws, (with_sf_draws (fun _ _ _ => 1) (fun _ _ _ => 1) no_draws), c1, c2, o1, o2, los.
  split; [reflexivity|]. split; [reflexivity|]. split; [exact E1|]. split; [exact E2|]. split; [exact LO|].
  split.
  { destruct (sf_draws_channel sc false _ _ _ z (fun _ _ _ => 1) (fun _ _ _ => 1) c1 Ch E1) as (p & E2' & _).
    assert (c2 = chan_with_pl p c1) by congruence. subst c2. exact LO. }
  split; [exact O1|]. split; [exact O2|].
  specialize (Q 0 0 0 0 0 0 0)%nat. rewrite C, LT in Q. cbn [option_map] in Q.
  eexists. eexists. split; [exact C|]. split; [exact Q|].
  assert (P : 0 < cnorm2 h).
  { destruct h as [hr hi]. unfold cnorm2; cbn. assert (hr <> 0 \/ hi <> 0).
    { destruct (Req_dec hr 0) as [->|]; [|left; assumption]. destruct (Req_dec hi 0) as [->|]; [|right; assumption]. contradiction. }
    destruct H; nra. }
  split; [lra|]. rewrite cnorm2_mul, cnorm2_real. cbn [no_draws dr_z_los].
  assert (K1 : 0 < Rpower 10 (- (sl * (1 - 0)) / 20)) by apply exp_pos.
  assert (K2 : Rpower 10 (- (sl * (1 - 0)) / 20) < 1).
  { apply Rlt_le_trans with (Rpower 10 0); [apply Rpower_lt; lra | rewrite Rpower_O; lra]. }
  match goal with |- ?n * (?k * ?k) < ?n => assert (k * k < 1) by nra; rewrite <- (Rmult_1_r n) at 2; apply Rmult_lt_compat_l; assumption end.
Qed.

Lemma channel_example_l : exists sc, constructed sc /\
  (forall al dr z fs d, settled sc al [SetTopology (two_uts 100) dr z; Call fs d; SetTopology no_args dr z; Call fs d] (two_uts 100) dr z) /\
  (forall al dr z, outcomes sc al (chan_init sc) [SetTopology (two_uts 100) dr z; SetTopology no_args dr z] =
     [(two_uts 100, Ok tt); (no_args, Ok tt)]) /\
  (forall al dr z, exists e, outcomes sc al (chan_init sc) [SetTopology (two_uts 0) dr z] = [(two_uts 0, Err e)]).
Proof.
  destruct example_constructed as (sc & Hc & _). exists sc. split; [exact Hc|].
  assert (OK1 : forall al c dr z, snd (chan_set_topology sc al c (two_uts 100) dr z) = Ok tt)
    by (intros; apply (two_uts_outcome sc al c 100 dr z Hc); lra).
  split; [|split].
  - intros al dr z fs d. exists [], [Call fs d; SetTopology no_args dr z; Call fs d]. split; [reflexivity|].
    split; [left; discriminate|]. split; [apply OK1|].
    intros a' dr' z' [E|[E|[E|[]]]]; try discriminate. injection E as <- <- <-. unfold changes_topology; cbn; tauto.
  - intros al dr z. cbn [outcomes]. rewrite OK1. do 2 f_equal.
    assert (Q := OK1 al (chan_init sc) dr z).
    cbn [chan_step]. destruct (chan_set_topology sc al (chan_init sc) (two_uts 100) dr z) as [c1 r] eqn:E. cbn [snd] in Q. subst r. cbn [fst].
    assert (Ch : changes_topology (two_uts 100)) by (left; discriminate).
    destruct (change_ok _ _ _ _ _ _ _ E Ch) as (ST & _).
    destruct (step_cases _ _ _ _ _ _ (constructed_accepted sc Hc) ST) as [(_ & _ & [m Hm]) | (_ & _ & I & _)]; [discriminate|].
    destruct I as (I1 & I2 & I3 & I4 & I5 & I6 & _).
    assert (CC : complete_call (c_st c1) (channel_args no_args) = true).
    { unfold complete_call. cbn [channel_args no_args a_ut_loc a_bs_loc a_in a_ut_ori a_bs_ori a_ut_vel given orb].
      rewrite I1, I2, I3, I4, I5, I6. reflexivity. }
    destruct (set_topology_complete sc (c_st c1) (channel_args no_args) dr CC) as (ut & bs & ind & _ & _ & _ & EE).
    unfold chan_set_topology. rewrite EE. reflexivity.
  - intros al dr z. cbn [outcomes]. destruct (snd (chan_set_topology sc al (chan_init sc) (two_uts 0) dr z)) as [[]|e] eqn:E; [|eauto].
    apply (two_uts_outcome sc al (chan_init sc) 0 dr z Hc) in E. lra.
Qed.
