(* Generated topologies handed to the channel object. *)
From Coq Require Import Reals String List Bool Arith ZArith Lra Lia.
From Verif Require Import M_Base L_Base M_Params M_Geometry M_Pathloss M_Scenario S_Topology L_Fresh L_Topology M_Lsp S_Lsp L_Lsp
  M_Channel S_Channel L_Channel L_Trig M_TopoGen M_Coeff S_Coeff S_TopoGen L_Rotation L_TopoGen.
Import ListNotations.
Open Scope list_scope.
Open Scope R_scope.

Lemma in_sizes batch num_ut scenario a dr t : gen_single_sector_topology batch num_ut scenario a dr = Ok t ->
  t_batch (u_in (tp_uts t)) = batch /\ t_num (u_in (tp_uts t)) = num_ut.
Proof.
  unfold gen_single_sector_topology. destruct (set_3gpp_scenario_parameters scenario a); [|discriminate].
  unfold generate_uts_topology. destruct (negb _); [discriminate|]. cbv zeta. intros H; injection H as <-.
  split; reflexivity.
Qed.

Lemma C70_l : forall sc always c batch num_ut scenario a isd h el zmin zmax vmin vmax gdr t ut uo args dr z,
  constructed sc -> (1 <= batch)%nat ->
  resolved scenario a isd h el zmin zmax vmin vmax -> 0 < isd -> 0 < h -> 0 < el <= 90 -> proper_draws gdr ->
  gen_single_sector_topology batch num_ut scenario a gdr = Ok t -> handed_over t ut uo args ->
  (forall b u u', (b < batch)%nat -> (u < num_ut)%nat -> (u' < num_ut)%nat -> u <> u' ->
     gd_x gdr b u <> gd_x gdr b u' \/ gd_y gdr b u <> gd_y gdr b u') ->
  let '(c', r) := chan_set_topology sc always c args dr z in
  r = Ok tt /\
  exists g, s_geo (c_st c') = Some g /\ forall b s u, g_d3d g b s u = slant_range (sc_elev sc) h.
Proof.
  intros sc always c batch num_ut scenario a isd h el zmin zmax vmin vmax gdr t ut uo args dr z
    HC HB R I H E D G (S1 & S2 & S3 & S4 & A1 & A2 & A3 & A4 & A5 & A6) DIS.
  destruct (generated batch num_ut scenario a isd h el zmin zmax vmin vmax gdr R H E D)
    as (t' & cx & cy & G' & _ & _ & _ & _ & B1 & B2 & B3 & U1 & U2 & U).
  rewrite G in G'. injection G' as <-.
  destruct (in_sizes _ _ _ _ _ _ G) as [N1 N2].
  pose proof (constructed_accepted _ HC) as HA.
  assert (CA : channel_args args = {| a_ut_loc := Some ut; a_bs_loc := Some (tp_bs_loc t); a_ut_ori := Some uo;
     a_bs_ori := Some (tp_bs_orient t); a_ut_vel := Some (u_vel (tp_uts t)); a_in := Some (u_in (tp_uts t));
     a_los := a_los args; a_weather := no_weather; a_doppler := None |}).
  { unfold channel_args. rewrite A1, A2, A3, A4, A5, A6. reflexivity. }
  destruct (full_call sc (c_st c) ut (tp_bs_loc t) uo (tp_bs_orient t) (u_vel (tp_uts t)) (u_in (tp_uts t))
              (a_los args) no_weather None dr HA) as (st & ST & F1 & F2 & _ & _ & _ & F6); try congruence; try lia.
  rewrite <- CA in ST.
  destruct (C68_l sc always c args dr z st HC ST) as (ut' & ind & los & G1 & G2 & G3 & X).
  rewrite F1 in G1. injection G1 as <-.
  assert (OK : snd (chan_set_topology sc always c args dr z) = Ok tt).
  { apply X. intros b u u' Hb Hu Hu' N _. rewrite S1, U1 in Hb. rewrite S2, U2 in Hu, Hu'.
    destruct (U b u) as (x & y & -> & -> & L & _). destruct (U b u') as (x' & y' & -> & -> & L' & _).
    rewrite S3 in L, L'. injection L as ->. injection L' as ->. cbn [vx vy].
    unfold uniform. destruct (DIS b u u' Hb Hu Hu' N) as [K|K]; [left|right]; intros Q; apply K; nra. }
  destruct (chan_set_topology sc always c args dr z) as [c' r] eqn:CS. cbn [snd] in OK. split; [exact OK|].
  subst r.
  assert (CH : changes_topology args) by (apply changes_iff; rewrite CA; reflexivity).
  destruct (change_ok sc always c args dr z c' CS CH) as [ST' _].
  rewrite ST in ST'. injection ST' as <-.
  destruct (update_content sc (c_st c) (channel_args args) dr _ HA ST)
    as (ut2 & bs2 & ind2 & p & K1 & K2 & _ & _ & _ & _ & _ & _ & _ & _ & _ & (g & K3 & K4 & _) & _).
  rewrite F2 in K2. injection K2 as <-. exists g. split; [exact K3|].
  intros b s u. rewrite K4, B3. reflexivity.
Qed.

(* the satellite faces straight down *)
Lemma C69_l : forall batch num_ut scenario a dr t b s,
  gen_single_sector_topology batch num_ut scenario a dr = Ok t ->
  t_batch (tp_bs_orient t) = batch /\ t_num (tp_bs_orient t) = 1%nat /\
  boresight (t_at (tp_bs_orient t) b s) = V3 0 0 (-1).
Proof.
  intros batch num_ut scenario a dr t b s.
  unfold gen_single_sector_topology. destruct (set_3gpp_scenario_parameters scenario a); [|discriminate].
  destruct (generate_uts_topology _ _ _ _ _ _); [|discriminate]. intros H; injection H as <-.
  cbn [tp_bs_orient t_batch t_num t_at]. repeat split.
  unfold boresight. rewrite rot_pos_comp. cbn [vx vy vz].
  replace (0.5 * PI) with (PI / 2) by lra.
  apply vec3_eq; unfold rot_z, rot_y, rot_x; cbn [vx vy vz]; rewrite ?cos_0, ?sin_0, ?cos_PI2, ?sin_PI2; ring.
Qed.

(* a channel accepting a generated topology of three UTs *)
Definition spread_draws : gen_draws :=
  {| gd_base := 1 / 2; gd_side := fun _ _ => 0; gd_x := fun _ u => / (2 + INR u); gd_y := fun _ _ => 0;
     gd_sector := fun _ _ => 0%Z; gd_z := fun _ _ => 0; gd_in := fun _ _ => 0;
     gd_angle := fun _ _ => 0; gd_speed := fun _ _ => 0 |}.

Lemma inv_unit u : 0 <= / (2 + INR u) < 1.
Proof.
  pose proof (pos_INR u). split; [left; apply Rinv_0_lt_compat; lra|].
  rewrite <- Rinv_1. apply Rinv_lt_contravar; lra.
Qed.

Lemma spread_proper : proper_draws spread_draws.
Proof. constructor; intros; cbn; unfold unit_draw; try lra. apply inv_unit. Qed.

Lemma spread_distinct u u' : u <> u' -> / (2 + INR u) <> / (2 + INR u').
Proof.
  intros N Q. apply N, INR_eq. pose proof (pos_INR u). pose proof (pos_INR u').
  apply (f_equal Rinv) in Q. rewrite !Rinv_inv in Q. lra.
Qed.

Definition elev45 : gen_args :=
  {| ga_isd := None; ga_height := None; ga_elev := Some 45; ga_min_h := None; ga_max_h := None;
     ga_indoor := None; ga_min_v := None; ga_max_v := None |}.
Lemma elev45_resolved : resolved "sur" elev45 5000 600000 45 1.5 1.5 0 0.
Proof.
  constructor; try (right; split; reflexivity); [|left; reflexivity].
  exists 5000. split; [constructor|right; split; reflexivity].
Qed.
Lemma elev45_front : 5000 / 2 < gd_base spread_draws * (600000 * cos (deg_2_rad 45) / sin (deg_2_rad 45)).
Proof.
  replace (deg_2_rad 45) with (PI / 4) by (unfold deg_2_rad; field).
  assert (E45 : cos (PI / 4) = sin (PI / 4)) by (rewrite cos_PI4, sin_PI4; reflexivity). rewrite E45.
  assert (S : 0 < sin (PI / 4)) by (pose proof PI_RGT_0; apply sin_gt_0; lra).
  replace (600000 * sin (PI / 4) / sin (PI / 4)) with 600000 by (field; lra).
  cbn [spread_draws gd_base]. lra.
Qed.

Lemma handed_over_example : exists t ut uo args,
  gen_single_sector_topology 2 3 "sur" elev45 spread_draws = Ok t /\ handed_over t ut uo args.
Proof.
  assert (H : 0 < 600000) by lra. assert (E : 0 < 45 <= 90) by lra. assert (I : 0 <= 5000) by lra.
  destruct (generated 2 3 "sur" elev45 5000 600000 45 1.5 1.5 0 0 _ elev45_resolved H E spread_proper)
    as (t & cx & cy & G & _ & _ & _ & _ & _ & _ & _ & U1 & U2 & U).
  set (ut := T 2 3 (fun b u => match t_at (u_loc (tp_uts t)) b u with Some v => v | None => V3 0 0 0 end)).
  set (uo := T 2 3 (fun b u => match t_at (u_orient (tp_uts t)) b u with Some v => v | None => V3 0 0 0 end)).
  exists t, ut, uo, {| a_ut_loc := Some ut; a_bs_loc := Some (tp_bs_loc t); a_ut_ori := Some uo;
     a_bs_ori := Some (tp_bs_orient t); a_ut_vel := Some (u_vel (tp_uts t)); a_in := Some (u_in (tp_uts t));
     a_los := None; a_weather := no_weather; a_doppler := None |}.
  split; [exact G|]. unfold handed_over. cbn [a_ut_loc a_bs_loc a_ut_ori a_bs_ori a_ut_vel a_in].
  split; [symmetry; exact U1|]. split; [symmetry; exact U2|].
  split; [intros b u; destruct (U b u) as (x & y & _ & _ & L & _); cbn [ut t_at]; rewrite L; reflexivity|].
  split; [|repeat split].
  intros b u. destruct (U b u) as (x & y & _ & _ & L & O & _).
  pose proof (C45_front_l 2 3 "sur" elev45 5000 600000 45 1.5 1.5 0 0 _ t b u _ elev45_resolved I H E
                spread_proper elev45_front G L) as X. cbn [vx] in X.
  cbn [uo t_at]. rewrite O. unfold atan_div. destruct (Req_EM_T x 0); [lra|]. reflexivity.
Qed.
