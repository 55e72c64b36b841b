(* A link that meets the hypotheses of the wideband theorem. *)
From Coq Require Import Reals Nsatz String List Bool Arith Lia Lra Permutation Sorting.Sorted.
From Verif Require Import M_Base L_Base M_Params S_Config L_Params L_Config M_Geometry M_Pathloss M_Scenario
  M_Lsp S_Linear L_Linear S_Lsp S_Topology L_Pathloss L_Trig L_Geometry L_Scenario L_Fresh L_Topology L_Corr L_Lsp
  S_Pathloss L_Loss M_Rays S_Rays L_Rays L_RaysEx M_Antenna L_Antenna M_Cplx M_Coeff S_Coeff L_Rotation L_Coeff M_Channel S_Channel L_Chol L_Channel L_Link L_Paths
  S_Ray L_Ray S_Mean L_Mean S_MeanLink L_MeanLink L_MeanLinkEx M_Convert S_Convert L_Csum L_Convert S_Wideband L_Wideband.
Import ListNotations.
Open Scope string_scope.
Open Scope list_scope.
Open Scope R_scope.

Lemma wideband_example_l srt srtd j1 fr : valid_argsort srt -> valid_argsort_desc srtd ->
  exists sc a dr z ua ba D E n gain leak A TAU, constructed sc /\ settled sc false [SetTopology a dr z] a dr z /\ uniform_phases n E /\
    0 < gain /\ 0 < leak /\ (exists pu pb, make_array j1 pu = Ok ua /\ make_array j1 pb = Ok ba) /\
    (exists d, only_phases_vary (sc_dir sc) 0 0 0 d D) /\
    let c := chan_run sc false (chan_init sc) [SetTopology a dr z] in
    (forall ph o, chan_call srt srtd sc ua ba false c 1e6 (D ph) = Ok o -> tensors_of (sc_dir sc) o 0 0 0 0 0 (n + 4) (A ph) (TAU ph)) /\
    forall k t, (k < length fr)%nat ->
      E (fun ph => creal (cnorm2 (on_link (sc_dir sc)
           (fun b r ra x xa => cir_to_ofdm (Dims 1 1 1 1 1 (n + 4) 14) fr (A ph) (TAU ph) false b r ra x xa t k) 0 0 0 0 0))) =
      creal (gain * ((cos (27 * PI / 180))² + leak * (sin (27 * PI / 180))²)).
Proof.
  intros V VD.
  destruct (mean_link_setup srt srtd j1 V VD) as (sc & a & dr & z & ua & ba & D & E & n & gain & leak & Hc & Hs & UE & H4 & H5 &
    (pu & pb & VU & VB & MU & MB) & (d & VP & lsps & mask & rr & y & los & B1 & B2 & B3 & B4 & B5 & B6 & B7 & B8 & B9 & -> & NU & NB & DIR & ENV & SL) & PW).
  set (c := chan_run sc false (chan_init sc) [SetTopology a dr z]) in *. assert (Ha := constructed_accepted sc Hc).
  set (call := fun ph => chan_call srt srtd sc ua ba false c 1e6 (D ph)).
  exists sc, a, dr, z, ua, ba, D, E, 4%nat, gain, leak,
    (fun ph => match call ph with Ok o => fun b r ra x xa p t => match o_h o b r ra x xa p t with Some v => v | None => c0 end | Err _ => fun _ _ _ _ _ _ _ => c0 end),
    (fun ph => match call ph with Ok o => Tau4 (fun b r x p => match o_delays o b r x p with Some v => v | None => 0 end) | Err _ => Tau4 (fun _ _ _ _ => 0) end).
  split; [exact Hc|]. split; [exact Hs|]. split; [exact UE|]. split; [exact H4|]. split; [exact H5|].
  split; [exists pu, pb; auto|]. split; [exists d; exact VP|]. intros c9. subst c9.
  destruct (C89_link_l srt srtd j1 pu pb ua ba sc false _ a dr z 1e6 d D 0 0 0 0 0 fr V VD Hc Hs MU MB ltac:(lia) ltac:(lia) VP)
    as (lsps2 & mask2 & rr2 & vel & uo & bo & bs & g & los2 & ind & pl & n1 & n2 & C1 & C2 & C3 & C4 & C5 & C6 & C7 & C8 & C9 & C10 & C11 & C12 & C13 & MAIN).
  fold c in C2, C3, C4, C5, C6, C7, C8, C9, C10, C11, C12, MAIN.
  assert (lsps2 = lsps) by congruence. subst lsps2. assert (mask2 = mask) by congruence. subst mask2.
  assert (rr2 = rr) by congruence. subst rr2. assert (los2 = los) by congruence. subst los2.
  assert (ind = T 1 1 (fun _ _ => false)) by congruence. subst ind. assert (uo = t1 (V3 0 0 0)) by congruence. subst uo. assert (bo = t1 (V3 0 0 0)) by congruence. subst bo.
  assert (NN : n1 = 3%nat /\ n2 = 4%nat).
  { assert (Q1 := documented_value_fun _ _ _ _ _ _ _ _ (C13 true) (proj1 (dense_documented sc true Ha ENV))).
    assert (Q2 := documented_value_fun _ _ _ _ _ _ _ _ (C13 false) (proj1 (dense_documented sc false Ha ENV))).
    injection Q1 as Q1. injection Q2 as Q2. split; apply INR_eq; [rewrite Q1|rewrite Q2]; cbn; lra. }
  destruct NN as [-> ->]. cbn [Nat.max] in MAIN.
  destruct (MAIN eq_refl ltac:(rewrite B9; discriminate)) as (y2 & Y2 & TX & FIN). assert (y2 = y) by congruence. subst y2. clear MAIN.
  cbv zeta in FIN.
  assert (TEN : forall ph o, call ph = Ok o -> tensors_of (sc_dir sc) o 0 0 0 0 0 (4 + 4)
    (match call ph with Ok o => fun b r ra x xa p t => match o_h o b r ra x xa p t with Some v => v | None => c0 end | Err _ => fun _ _ _ _ _ _ _ => c0 end)
    (match call ph with Ok o => Tau4 (fun b r x p => match o_delays o b r x p with Some v => v | None => 0 end) | Err _ => Tau4 (fun _ _ _ _ => 0) end)).
  { intros ph o O. rewrite O. destruct (TX ph o O) as (a' & tau' & Q). intros p Hp. destruct (Q p Hp) as [Q1 Q2].
    unfold link_delay, link_coefficient, on_link, S_Convert.path_delay in *. rewrite DIR in *. cbn [String.eqb Ascii.eqb Bool.eqb] in *.
    split; [rewrite Q1; reflexivity|]. intros t. rewrite (Q2 t). reflexivity. }
  split; [exact TEN|]. intros k t Hk.
  set (G := down_arrays sc ua ba) in *. set (L := down_link sc (c_st c) vel (t1 (V3 0 0 0)) (t1 (V3 0 0 0)) bs g los (cd_dir d) 0 0 0) in *.
  destruct (fields_exist j1 pu pb G L y 4 MU MB) as [F FO].
  { intros c' r Hc' Hr. destruct (SL c' r Hc' Hr). split; apply slanted_off_axis; try assumption; split; reflexivity. }
  rewrite <- (PW t).
  destruct (C84_link_l srt srtd j1 pu pb ua ba sc false _ a dr z 1e6 d D 0 0 0 0 0 t V VD Hc Hs MU MB ltac:(lia) ltac:(lia) VP)
    as (lsps3 & mask3 & rr3 & vel3 & uo3 & bo3 & bs3 & g3 & los3 & ind3 & pl3 & n3 & n4 & E1 & E2 & E3 & E4 & E5 & E6 & E7 & E8 & E9 & E10 & E11 & E12 & E13 & M3).
  fold c in E2, E3, E4, E5, E6, E7, E8, E9, E10, E11, E12, M3.
  assert (lsps3 = lsps) by congruence. subst lsps3. assert (mask3 = mask) by congruence. subst mask3.
  assert (rr3 = rr) by congruence. subst rr3. assert (los3 = los) by congruence. subst los3.
  assert (ind3 = T 1 1 (fun _ _ => false)) by congruence. subst ind3. assert (uo3 = t1 (V3 0 0 0)) by congruence. subst uo3. assert (bo3 = t1 (V3 0 0 0)) by congruence. subst bo3.
  assert (vel3 = vel) by congruence. subst vel3. assert (bs3 = bs) by congruence. subst bs3. assert (g3 = g) by congruence. subst g3.
  assert (NN : n3 = 3%nat /\ n4 = 4%nat).
  { assert (Q1 := documented_value_fun _ _ _ _ _ _ _ _ (E13 true) (proj1 (dense_documented sc true Ha ENV))).
    assert (Q2 := documented_value_fun _ _ _ _ _ _ _ _ (E13 false) (proj1 (dense_documented sc false Ha ENV))).
    injection Q1 as Q1. injection Q2 as Q2. split; apply INR_eq; [rewrite Q1|rewrite Q2]; cbn; lra. }
  destruct NN as [-> ->]. cbn [Nat.max] in M3.
  destruct (M3 eq_refl ltac:(rewrite B9; discriminate)) as (y3 & Y3 & _ & _ & _ & _ & FIN3). assert (y3 = y) by congruence. subst y3. clear M3.
  cbv zeta in FIN3.
  assert (UPF : String.eqb (sc_dir sc) "uplink" = false) by (rewrite DIR; reflexivity). rewrite UPF in FIN, FIN3. fold L in FIN3. fold G in FIN3.
  assert (PL : (if sc_pathloss sc then Rpower 10 (- pl3 0%nat 0%nat 0%nat / 10) else 1) = (if sc_pathloss sc then Rpower 10 (- pl 0%nat 0%nat 0%nat / 10) else 1)).
  { destruct (sc_pathloss sc); [|reflexivity]. specialize (C12 eq_refl). specialize (E12 eq_refl). assert (pl3 = pl) by congruence. subst; reflexivity. }
  rewrite (FIN3 F E FO UE), PL.
  destruct (FIN F E (Dims 1 1 1 1 1 (4 + 4) 14) _ _ FO UE eq_refl TEN) as (dl & _ & _ & _ & Q).
  destruct (Q k k t t Hk Hk) as [Q1 _]. exact Q1.
Qed.
