(* The time axis of a link. *)
From Coq Require Import Reals String List Bool Arith Lia Lra.
From Verif Require Import M_Base L_Base M_Params S_Config L_Params L_Config M_Geometry M_Pathloss M_Scenario
  M_Lsp S_Linear L_Linear S_Lsp S_Topology L_Scenario L_Fresh L_Topology L_Chol M_Rays M_Antenna M_Cplx M_Coeff S_Coeff L_Coeff
  M_Channel S_Channel L_Channel L_Link L_Lsp L_Pathloss S_Isolation L_Isolation S_Motion S_Evolution L_Motion.
Import ListNotations.
Open Scope string_scope.
Open Scope list_scope.
Open Scope R_scope.

Lemma turned_0 v : turned 0 v = v.
Proof. destruct v as [x y z]. unfold turned; cbn [vx vy vz]. rewrite cos_0, sin_0. f_equal; ring. Qed.
Lemma moved_0 v : moved 0 0 0 v = v.
Proof. unfold moved. rewrite turned_0. destruct v as [x y z]; cbn. f_equal; ring. Qed.

Lemma same_still m b b' st st' : same_example m b b' (without_velocity st) (without_velocity st') -> moved_still 0 0 0 m b b' st st'.
Proof.
  intros [H1 H2 H3 H4 H5 H6 H7 H8]; cbn [without_velocity s_ut_loc s_bs_loc s_ut_ori s_bs_ori s_in s_req_los] in *. constructor; try assumption.
  - destruct H1 as (v & w & E1 & E2 & B1 & B2 & N1 & N2 & H). exists v, w.
    split; [exact E1|]. split; [exact E2|]. split; [exact B1|]. split; [exact B2|]. split; [exact N1|]. split; [exact N2|].
    intros i Hi. rewrite moved_0. symmetry. apply H, Hi.
  - destruct H3 as (v & w & E1 & E2 & B1 & B2 & N1 & N2 & H). exists v, w.
    split; [exact E1|]. split; [exact E2|]. split; [exact B1|]. split; [exact B2|]. split; [exact N1|]. split; [exact N2|].
    intros i Hi. rewrite moved_0. symmetry. apply H, Hi.
  - intros v x u Hv Hx Hu. rewrite (H5 v x u Hv Hx Hu). unfold reoriented, same_heading. rewrite Rplus_0_r. repeat split.
  - intros v x Hv Hx. rewrite (H7 v x Hv Hx). unfold reoriented, same_heading. rewrite Rplus_0_r. repeat split.
Qed.

Lemma C92_l : forall srt srtd ua ba sc sc' f al ops ops' a a' dr dr' z z' fs fs' d d' m b b',
  constructed sc -> constructed sc' -> sc' = with_doppler f sc -> settled sc al ops a dr z -> settled sc' al ops' a' dr' z' ->
  let c := chan_run sc al (chan_init sc) ops in
  let c' := chan_run sc' al (chan_init sc') ops' in
  same_example m b b' (without_velocity (c_st c)) (without_velocity (c_st c')) -> same_topo_draws m b b' dr dr' ->
  (if al then same_lsp_draws m b b' (cd_lsp d) (cd_lsp d') else same_lsp_draws m b b' z z') ->
  same_call_draws (sc_dir sc) m b b' (undirected d) (undirected d') ->
  exists o o', chan_call srt srtd sc ua ba al c fs d = Ok o /\ chan_call srt srtd sc' ua ba al c' fs' d' = Ok o' /\
    forall bs vel vel' is u iu p t t', (u < m)%nat ->
      s_bs_loc (c_st c) = Some bs -> s_ut_vel (c_st c) = Some vel -> s_ut_vel (c_st c') = Some vel' ->
      let tau := INR t / fs in let tau' := INR t' / fs' in
      vscale tau' (t_at vel' b' u) = vscale tau (t_at vel b u) ->
      let h := vz (t_at bs 0%nat 0%nat) in
      let closer := closing_speed sc' h (cd_dir d' b') * tau' - closing_speed sc h (cd_dir d b) * tau in
      link_coefficient (sc_dir sc) o' b' 0 is u iu p t' =
        option_map (cmul (cexpi (carrier_phase sc closer))) (link_coefficient (sc_dir sc) o b 0 is u iu p t) /\
      link_delay (sc_dir sc) o' b' 0 u p = link_delay (sc_dir sc) o b 0 u p.
Proof.
  intros srt srtd ua ba sc sc' f al ops ops' a a' dr dr' z z' fs fs' d d' m b b' Hc Hc' ES Hs Hs' c c' SE TD LD CD.
  destruct (scene_core srt srtd ua ba sc sc' f al ops ops' a a' dr dr' z z' fs fs' d d' 0 0 0 m b b' Hc Hc' ES Hs Hs' (same_still _ _ _ _ _ SE) TD LD CD)
    as (o & o' & O & O' & M). fold c in O, M. fold c' in O', M.
  exists o, o'. split; [exact O|]. split; [exact O'|]. intros bs vel vel' is u iu p t t' Hu EB EV EV' tau tau' MV.
  apply M with (vel := vel) (vel' := vel'); try assumption; [left; reflexivity|]. rewrite turned_0. exact MV.
Qed.

Lemma same_itself m b st ut ind bs : s_ut_loc st = Some ut -> s_in st = Some ind -> s_bs_loc st = Some bs ->
  (b < t_batch ut)%nat -> (m <= t_num ut)%nat -> t_batch ind = t_batch ut -> t_num ind = t_num ut -> t_batch bs = t_batch ut -> (1 <= t_num bs)%nat ->
  same_example m b b (without_velocity st) (without_velocity st).
Proof.
  intros H1 H2 H3 B N E1 E2 E3 E4.
  constructor; cbn [without_velocity s_ut_loc s_bs_loc s_ut_ori s_bs_ori s_in s_req_los s_ut_vel]; try (intros; congruence).
  - exists ut, ut. repeat split; auto.
  - exists ind, ind. repeat split; auto; lia.
  - exists bs, bs. repeat split; auto; lia.
Qed.

Lemma same_draws_itself dir m b d : same_call_draws dir m b b d d.
Proof. constructor; try reflexivity. all: constructor; reflexivity. Qed.

(* two calls of the same object with the same draws *)
Lemma one_object srt srtd ua ba sc al ops a dr z fs fs' d : constructed sc -> settled sc al ops a dr z ->
  let c := chan_run sc al (chan_init sc) ops in
  exists o o' ut bs vel, chan_call srt srtd sc ua ba al c fs d = Ok o /\ chan_call srt srtd sc ua ba al c fs' d = Ok o' /\
    s_ut_loc (c_st c) = Some ut /\ s_bs_loc (c_st c) = Some bs /\ s_ut_vel (c_st c) = Some vel /\
    forall b is u iu p t t', (b < t_batch ut)%nat -> (u < t_num ut)%nat ->
      vscale (INR t' / fs') (t_at vel b u) = vscale (INR t / fs) (t_at vel b u) ->
      let v := closing_speed sc (vz (t_at bs 0%nat 0%nat)) (cd_dir d b) in
      link_coefficient (sc_dir sc) o' b 0 is u iu p t' =
        option_map (cmul (cexpi (carrier_phase sc (v * (INR t' / fs') - v * (INR t / fs))))) (link_coefficient (sc_dir sc) o b 0 is u iu p t) /\
      link_delay (sc_dir sc) o' b 0 u p = link_delay (sc_dir sc) o b 0 u p.
Proof.
  intros Hc Hs c.
  destruct (call_defined srt srtd ua ba _ _ _ _ _ _ fs d Hc Hs) as [o O]. destruct (call_defined srt srtd ua ba _ _ _ _ _ _ fs' d Hc Hs) as [o' O'].
  fold c in O, O'.
  destruct (C31_axes_l _ _ _ _ _ _ _ _ _ _ O) as (_ & _ & _ & vel & _ & _ & bs & _ & _ & _ & _ & _ & _ & _ & D4 & _ & _ & D7 & _).
  assert (SH : exists ut ind, s_ut_loc (c_st c) = Some ut /\ s_in (c_st c) = Some ind /\ t_batch ind = t_batch ut /\ t_num ind = t_num ut /\ t_batch bs = t_batch ut /\ t_num bs = 1%nat).
  { assert (Ha := constructed_accepted sc Hc). destruct Hs as (before & after & E & Ch & Ok1 & N).
    set (c0 := chan_run sc al (chan_init sc) before) in *.
    destruct (chan_set_topology sc al c0 a dr z) as [c1 r] eqn:E1. cbn [snd] in Ok1. subst r.
    destruct (change_ok sc al c0 a dr z c1 E1 Ch) as (ST & _).
    assert (C : c = chan_run sc al c1 after).
    { unfold c. rewrite E, chan_run_app. fold c0. cbn [chan_run fold_left chan_step]. rewrite E1. reflexivity. }
    destruct (quiet sc al after c1 N) as (B1 & _). rewrite <- C in B1. destruct B1 as (S1 & S2 & S3 & _).
    destruct (update_content _ _ _ _ _ Ha ST) as (ut & bs' & ind & p & X1 & X2 & X3 & X4 & X5 & X6 & X7 & X8 & _).
    assert (bs' = bs) by congruence. subst bs'.
    exists ut, ind. split; [congruence|]. split; [congruence|]. repeat split; congruence. }
  destruct SH as (ut & ind & E1 & E2 & E3 & E4 & E5 & E6).
  exists o, o', ut, bs, vel. split; [exact O|]. split; [exact O'|]. split; [exact E1|]. split; [exact D7|]. split; [exact D4|].
  intros b is u iu p t t' Hb Hu MV.
  destruct (C92_l srt srtd ua ba sc sc (sc_doppler sc) al ops ops a a dr dr z z fs fs' d d (t_num ut) b b Hc Hc (with_doppler_same sc) Hs Hs) as (o2 & o3 & O2 & O3 & M).
  - apply (same_itself _ _ _ ut ind bs); try assumption; lia.
  - constructor; reflexivity.
  - destruct al; intros ? ? _; reflexivity.
  - apply same_draws_itself.
  - fold c in O2, O3, M. assert (o2 = o) by congruence. assert (o3 = o') by congruence. subst o2 o3.
    exact (M bs vel vel is u iu p t t' Hu D7 D4 D4 MV).
Qed.

Lemma C92_sampling_l : forall srt srtd ua ba sc al ops a dr z fs d k, constructed sc -> settled sc al ops a dr z -> fs <> 0 -> (1 <= k)%nat ->
  let c := chan_run sc al (chan_init sc) ops in
  exists o o' ut, chan_call srt srtd sc ua ba al c fs d = Ok o /\ chan_call srt srtd sc ua ba al c (INR k * fs) d = Ok o' /\ s_ut_loc (c_st c) = Some ut /\
    forall b is u iu p t, (b < t_batch ut)%nat -> (u < t_num ut)%nat ->
      link_coefficient (sc_dir sc) o' b 0 is u iu p (k * t) = link_coefficient (sc_dir sc) o b 0 is u iu p t /\
      link_delay (sc_dir sc) o' b 0 u p = link_delay (sc_dir sc) o b 0 u p.
Proof.
  intros srt srtd ua ba sc al ops a dr z fs d k Hc Hs F K c.
  destruct (one_object srt srtd ua ba sc al ops a dr z fs (INR k * fs) d Hc Hs) as (o & o' & ut & bs & vel & O & O' & E1 & E2 & E3 & M).
  fold c in O, O', E1, E2, E3, M. exists o, o', ut. split; [exact O|]. split; [exact O'|]. split; [exact E1|].
  intros b is u iu p t Hb Hu.
  assert (KP : 0 < INR k) by (apply lt_0_INR; lia).
  assert (T : INR (k * t) / (INR k * fs) = INR t / fs) by (rewrite mult_INR; field; lra).
  destruct (M b is u iu p t (k * t)%nat Hb Hu) as [H1 H2]; [rewrite T; reflexivity|].
  split; [|exact H2]. rewrite H1, T, Rminus_eq_0. unfold carrier_phase. rewrite Rmult_0_r. unfold Rdiv. rewrite Rmult_0_l, option_map_one. reflexivity.
Qed.

Lemma C92_rest_l : forall srt srtd ua ba sc al ops a dr z fs d, constructed sc -> settled sc al ops a dr z ->
  let c := chan_run sc al (chan_init sc) ops in
  exists o ut bs vel, chan_call srt srtd sc ua ba al c fs d = Ok o /\
    s_ut_loc (c_st c) = Some ut /\ s_bs_loc (c_st c) = Some bs /\ s_ut_vel (c_st c) = Some vel /\
    forall b is u iu p t, (b < t_batch ut)%nat -> (u < t_num ut)%nat -> t_at vel b u = V3 0 0 0 ->
      let v := closing_speed sc (vz (t_at bs 0%nat 0%nat)) (cd_dir d b) in
      link_coefficient (sc_dir sc) o b 0 is u iu p t =
        option_map (cmul (cexpi (carrier_phase sc (v * (INR t / fs))))) (link_coefficient (sc_dir sc) o b 0 is u iu p 0) /\
      (sc_doppler sc = false \/ vz (t_at bs 0%nat 0%nat) < 600000 ->
       link_coefficient (sc_dir sc) o b 0 is u iu p t = link_coefficient (sc_dir sc) o b 0 is u iu p 0).
Proof.
  intros srt srtd ua ba sc al ops a dr z fs d Hc Hs c.
  destruct (one_object srt srtd ua ba sc al ops a dr z fs fs d Hc Hs) as (o & o' & ut & bs & vel & O & O' & E1 & E2 & E3 & M).
  fold c in O, O', E1, E2, E3, M. assert (o' = o) by congruence. subst o'.
  exists o, ut, bs, vel. split; [exact O|]. split; [exact E1|]. split; [exact E2|]. split; [exact E3|].
  intros b is u iu p t Hb Hu V v.
  destruct (M b is u iu p 0%nat t Hb Hu) as [H1 _].
  { rewrite V. unfold vscale; cbn [vx vy vz]. f_equal; ring. }
  fold v in H1. replace (v * (INR t / fs) - v * (INR 0 / fs)) with (v * (INR t / fs)) in H1 by (cbn [INR]; unfold Rdiv; ring).
  split; [exact H1|]. intros Q. rewrite H1.
  assert (Z : v = 0). { unfold v, closing_speed. destruct (Rle_dec 600000 (vz (t_at bs 0%nat 0%nat))); [|reflexivity]. destruct Q as [Q|Q]; [rewrite Q; reflexivity|lra]. }
  rewrite Z. unfold carrier_phase. rewrite Rmult_0_l, Rmult_0_r. unfold Rdiv. rewrite Rmult_0_l, option_map_one. reflexivity.
Qed.

Lemma constructed_with_doppler sc f : constructed sc -> constructed (with_doppler f sc).
Proof.
  intros (e & fc & ut & bs & dir & elev & pl & sh & dop & H). exists e, fc, ut, bs, dir, elev, pl, sh, f.
  revert H. unfold scenario_init.
  repeat match goal with
  | |- context [if ?b then Err _ else _] => destruct b; [discriminate|]
  | |- context [if ?b then _ else Err _] => destruct b; [|discriminate]
  | |- context [bind ?x _] => destruct x; cbn [bind]; [|discriminate]
  end.
  intros H; injection H as <-; reflexivity.
Qed.

Lemma evolution_example_l sc al f dr z : constructed sc ->
  let ut := T 2 2 (fun b u => V3 (600000 + 1000 * INR b + 100 * INR u) 0 1.5) in
  let bs := T 2 1 (fun b _ => V3 (50 * INR b) 0 600000) in
  let o n := T 2 n (fun _ _ => V3 0 0 0) in
  let a v := full_args ut bs (o 2%nat) (o 1%nat) (T 2 2 (fun _ u => V3 (v * INR u) 0 0)) (T 2 2 (fun b u => Nat.eqb b u)) None in
  constructed (with_doppler f sc) /\
  (forall v, settled sc al [SetTopology (a v) dr z] (a v) dr z /\ settled (with_doppler f sc) al [SetTopology (a v) dr z] (a v) dr z) /\
  (forall v v' b m, (b < 2)%nat -> (m <= 2)%nat -> same_example m b b (without_velocity (c_st (chan_run sc al (chan_init sc) [SetTopology (a v) dr z])))
     (without_velocity (c_st (chan_run (with_doppler f sc) al (chan_init (with_doppler f sc)) [SetTopology (a v') dr z])))) /\
  (forall w, cos w = 1 -> 0 < sc_elev sc < 90 -> 0 < closing_speed (with_doppler true sc) 600000 w).
Proof.
  intros Hc ut bs o a. assert (Hc' := constructed_with_doppler sc f Hc). split; [exact Hc'|].
  assert (OK : forall s v, constructed s -> exists st1, set_topology s (init_state s) (a v) dr = (st1, Ok true) /\
     s_ut_loc st1 = Some ut /\ s_bs_loc st1 = Some bs /\ s_ut_ori st1 = Some (o 2%nat) /\ s_bs_ori st1 = Some (o 1%nat) /\ s_in st1 = Some (T 2 2 (fun b u => Nat.eqb b u)) /\ s_req_los st1 = None /\
     snd (chan_set_topology s al (chan_init s) (a v) dr z) = Ok tt /\ c_st (fst (chan_set_topology s al (chan_init s) (a v) dr z)) = st1).
  { intros s v Hs. assert (Ha := constructed_accepted s Hs).
    destruct (full_call s (init_state s) ut bs (o 2%nat) (o 1%nat) (T 2 2 (fun _ u => V3 (v * INR u) 0 0)) (T 2 2 (fun b u => Nat.eqb b u)) None no_weather None dr Ha
       eq_refl eq_refl ltac:(cbn; lia) eq_refl eq_refl) as (st1 & R0 & R1 & R2 & R3 & R4 & R5 & R6).
    fold (full_args ut bs (o 2%nat) (o 1%nat) (T 2 2 (fun _ u => V3 (v * INR u) 0 0)) (T 2 2 (fun b u => Nat.eqb b u)) None) in R0. fold (a v) in R0.
    exists st1. split; [exact R0|]. split; [exact R1|]. split; [exact R2|]. split; [exact R3|]. split; [exact R4|]. split; [exact R6|].
    assert (RQ : s_req_los st1 = None).
    { destruct (step_cases _ _ _ _ _ _ Ha R0) as [(_ & _ & [k Hk]) | (_ & _ & II & _)]; [discriminate|].
      destruct II as (I1 & I2 & I3 & I4 & I5 & I6 & I7 & I8). rewrite I7. reflexivity. }
    split; [exact RQ|].
    assert (SK : snd (chan_set_topology s al (chan_init s) (a v) dr z) = Ok tt).
    { destruct (C68_l s al (chan_init s) (a v) dr z st1 Hs R0) as (ut2 & ind2 & los2 & Y1 & _ & _ & Iff). apply Iff.
      assert (ut2 = ut) by congruence. subst ut2. cbn [ut t_batch t_num t_at vx vy].
      intros b u u' _ _ _ N _. left. intros E. apply N. apply INR_eq. lra. }
    split; [exact SK|].
    destruct (chan_set_topology s al (chan_init s) (a v) dr z) as [c1 r1] eqn:EC1. cbn [snd] in SK. subst r1.
    destruct (change_ok _ _ _ _ _ _ _ EC1) as (ST1 & _); [left; discriminate|]. cbn [fst]. change (channel_args (a v)) with (a v) in ST1.
    change (c_st (chan_init s)) with (init_state s) in ST1. congruence. }
  split. { intros v. destruct (OK sc v Hc) as (_ & _ & _ & _ & _ & _ & _ & _ & K & _). destruct (OK _ v Hc') as (_ & _ & _ & _ & _ & _ & _ & _ & K' & _).
    split; [exact (proj1 (settled_now sc al (a v) dr z ltac:(left; discriminate) K))|exact (proj1 (settled_now _ al (a v) dr z ltac:(left; discriminate) K'))]. }
  split.
  - intros v v' b m Hb Hm. destruct (OK sc v Hc) as (st1 & _ & A1 & A2 & A3 & A4 & A5 & A6 & _ & K). destruct (OK _ v' Hc') as (st2 & _ & B1 & B2 & B3 & B4 & B5 & B6 & _ & K').
    change (chan_run sc al (chan_init sc) [SetTopology (a v) dr z]) with (fst (chan_set_topology sc al (chan_init sc) (a v) dr z)).
    change (chan_run (with_doppler f sc) al (chan_init (with_doppler f sc)) [SetTopology (a v') dr z]) with (fst (chan_set_topology (with_doppler f sc) al (chan_init (with_doppler f sc)) (a v') dr z)).
    rewrite K, K'. constructor; cbn [without_velocity s_ut_loc s_bs_loc s_ut_ori s_bs_ori s_in s_req_los s_ut_vel]; try (intros; congruence).
    + exists ut, ut. cbn. repeat split; auto.
    + exists (T 2 2 (fun b u => Nat.eqb b u)), (T 2 2 (fun b u => Nat.eqb b u)). cbn. repeat split; auto.
    + exists bs, bs. cbn. repeat split; auto.
  - intros w Hw He. unfold closing_speed. destruct (Rle_dec 600000 600000) as [_|N]; [|lra]. cbn [with_doppler sc_doppler sc_elev]. rewrite Hw, Rmult_1_r.
    assert (P := PI_RGT_0).
    apply Rmult_lt_0_compat; [apply satellite_speed_pos; lra|]. apply cos_gt_0.
    + apply Rlt_trans with 0; [lra|]. apply Rmult_lt_0_compat; lra.
    + replace (PI / 2) with (90 / 180 * PI) by field. apply Rmult_lt_compat_r; lra.
Qed.
