From Coq Require Import Reals String List Bool Arith Lia Lra ZArith Permutation Sorting.Sorted.
From Verif Require Import M_Base L_Base M_Params S_Config L_Params L_Config M_Geometry M_Pathloss M_Scenario
  M_Lsp S_Linear L_Linear S_Lsp S_Topology L_Pathloss L_Trig L_Geometry L_Scenario L_Fresh L_Topology L_Corr L_Lsp
  M_Rays S_Rays L_Rays L_RaysEx M_Antenna M_Cplx M_Coeff S_Coeff L_Rotation L_Coeff M_Channel S_Channel L_Chol.
Import ListNotations.
Open Scope string_scope.
Open Scope list_scope.
Open Scope R_scope.

(* ---- one set_topology call ---- *)
Lemma changes_iff a : changes_topology a <-> need_for_update (channel_args a) = true.
Proof.
  unfold changes_topology, need_for_update, channel_args; cbn. rewrite !orb_true_iff.
  destruct (a_ut_loc a), (a_bs_loc a), (a_in a), (a_los a); cbn; split; intros H; repeat split; auto;
    intuition congruence.
Qed.

Lemma set_topology_flag sc st a dr st' b : set_topology sc st a dr = (st', Ok b) -> b = need_for_update a.
Proof.
  intros H. destruct (complete_call st a) eqn:C.
  - destruct (set_topology_complete sc st a dr C) as (ut & bs & ind & _ & _ & _ & E). rewrite H in E.
    destruct (need_for_update a); [|inversion E; reflexivity].
    unfold update_topology in E.
    destruct (distance_2d ut bs); [|discriminate]. destruct (distance_3d_and_angles _ ut bs); [|discriminate].
    destruct (sample_indoor _ _ _ _ _); [|discriminate]. destruct (pv <- los_probability sc;; num_of pv); [|discriminate].
    destruct (compute_lsp_stat _ _ _); [|discriminate]. destruct (compute_pathlosses _ _ _ _ _ _); [|discriminate].
    inversion E; reflexivity.
  - destruct (set_topology_incomplete sc st a dr C) as (m & E). rewrite H in E. discriminate.
Qed.

(* fields of the scenario a topology change determines *)
Definition same_topology (s s' : state) : Prop :=
  s_ut_loc s = s_ut_loc s' /\ s_bs_loc s = s_bs_loc s' /\ s_in s = s_in s' /\ s_geo s = s_geo s' /\
  s_los s = s_los s' /\ s_lsp s = s_lsp s' /\ s_pl s = s_pl s' /\
  (s_ut_ori s' <> None -> s_ut_ori s <> None) /\ (s_bs_ori s' <> None -> s_bs_ori s <> None) /\
  (s_ut_vel s' <> None -> s_ut_vel s <> None).

Lemma same_topology_refl s : same_topology s s.
Proof. unfold same_topology. tauto. Qed.
Lemma same_topology_trans s1 s2 s3 : same_topology s1 s2 -> same_topology s2 s3 -> same_topology s1 s3.
Proof. unfold same_topology. intuition congruence. Qed.

Lemma no_change sc always c a dr z : ~ changes_topology a ->
  let c' := fst (chan_set_topology sc always c a dr z) in
  same_topology (c_st c') (c_st c) /\ c_cross c' = c_cross c /\ c_spatial c' = c_spatial c /\
  c_mask c' = c_mask c /\ c_lsp c' = c_lsp c.
Proof.
  intros N. rewrite changes_iff, not_true_iff_false in N. cbv zeta. unfold chan_set_topology.
  destruct (complete_call (c_st c) (channel_args a)) eqn:C.
  - destruct (set_topology_complete sc (c_st c) (channel_args a) dr C) as (ut & bs & ind & E1 & E2 & E3 & E).
    rewrite E, N. cbn [fst]. split; [|cbn; auto].
    unfold need_for_update, channel_args in N; cbn in N. rewrite !orb_false_iff in N.
    destruct N as (((N1 & N2) & N3) & N4).
    unfold same_topology; cbn.
    rewrite !or_else_none by assumption. repeat split; auto; destruct (a_ut_ori a), (a_bs_ori a), (a_ut_vel a); cbn; congruence.
  - destruct (set_topology_incomplete sc (c_st c) (channel_args a) dr C) as (m & E). rewrite E. cbn.
    split; [apply same_topology_refl|auto].
Qed.

Lemma failed_keeps_lsp sc always c a dr z e : snd (chan_set_topology sc always c a dr z) = Err e ->
  c_lsp (fst (chan_set_topology sc always c a dr z)) = c_lsp c /\
  (always = true -> c_mask (fst (chan_set_topology sc always c a dr z)) = c_mask c).
Proof.
  unfold chan_set_topology. destruct (set_topology sc (c_st c) (channel_args a) dr) as [st [[|]|e']]; cbn; auto.
  destruct (sizes st) as [[nb ns] nu].
  destruct (m <- cross_matrix st;; cholesky_all nb ns nu 7 m); [|cbn; auto].
  destruct (m <- spatial_matrix st;; cholesky_all nb ns 7 nu m); [|cbn; auto].
  destruct (compute_clusters_mask st) eqn:M; [|cbn; auto].
  destruct always; [cbn; discriminate|].
  destruct (lsp_sampler _ z); cbn; [discriminate|]. intros _. split; [reflexivity|discriminate].
Qed.

Lemma with_state_st c st : c_st (with_state c st) = st. Proof. reflexivity. Qed.

(* a successful topology change *)
Lemma change_ok sc always c a dr z c' : chan_set_topology sc always c a dr z = (c', Ok tt) -> changes_topology a ->
  set_topology sc (c_st c) (channel_args a) dr = (c_st c', Ok true) /\
  (exists ut bs Cm Sm Lx Ls mask, s_ut_loc (c_st c') = Some ut /\ s_bs_loc (c_st c') = Some bs /\
     cross_matrix (c_st c') = Ok Cm /\ spatial_matrix (c_st c') = Ok Sm /\
     cholesky_all (t_batch ut) (t_num bs) (t_num ut) 7 Cm = Ok Lx /\
     cholesky_all (t_batch ut) (t_num bs) 7 (t_num ut) Sm = Ok Ls /\
     compute_clusters_mask (c_st c') = Ok mask /\
     c_cross c' = Some Lx /\ c_spatial c' = Some Ls /\ c_mask c' = Some mask /\
     (always = false -> exists l, sample_lsp (c_st c') (t_num ut) Lx Ls z = Ok l /\ c_lsp c' = Some l)).
Proof.
  intros H Ch. apply changes_iff in Ch. unfold chan_set_topology in H.
  destruct (set_topology sc (c_st c) (channel_args a) dr) as [st r] eqn:ES.
  destruct r as [b|e]; [|discriminate].
  assert (Eb := set_topology_flag _ _ _ _ _ _ ES). rewrite Ch in Eb. subst b.
  assert (LOC : exists ut bs, s_ut_loc st = Some ut /\ s_bs_loc st = Some bs).
  { destruct (complete_call (c_st c) (channel_args a)) eqn:C.
    - destruct (set_topology_complete sc (c_st c) (channel_args a) dr C) as (ut & bs & ind & E1 & E2 & E3 & E).
      rewrite ES, Ch in E. symmetry in E. destruct (update_inputs _ _ _ _ _ _ _ _ _ E) as [I _].
      exists ut, bs. unfold same_inputs in I. intuition congruence.
    - destruct (set_topology_incomplete sc (c_st c) (channel_args a) dr C) as (m & E). rewrite ES in E. discriminate. }
  destruct LOC as (ut & bs & U & B). unfold sizes in H. rewrite U, B in H. cbn [fst snd] in H.
  destruct (cross_matrix st) as [Cm|] eqn:EC; cbn [bind] in H; [|discriminate].
  destruct (cholesky_all (t_batch ut) (t_num bs) (t_num ut) 7 Cm) as [Lx|] eqn:EX; [|discriminate].
  destruct (spatial_matrix st) as [Sm|] eqn:ESm; cbn [bind] in H; [|discriminate].
  destruct (cholesky_all (t_batch ut) (t_num bs) 7 (t_num ut) Sm) as [Ls|] eqn:EY; [|discriminate].
  destruct (compute_clusters_mask st) as [mask|] eqn:EM; [|discriminate].
  unfold lsp_sampler in H. cbn [c_st c_cross c_spatial with_mask with_spatial with_cross with_state] in H. rewrite U in H.
  destruct always.
  - injection H as <-. cbn [c_st c_cross c_spatial c_mask c_lsp with_mask with_spatial with_cross with_state].
    split; [reflexivity|]. exists ut, bs, Cm, Sm, Lx, Ls, mask. repeat split; try assumption. discriminate.
  - destruct (sample_lsp st (t_num ut) Lx Ls z) as [l|] eqn:EL; [|discriminate].
    injection H as <-. cbn [c_st c_cross c_spatial c_mask c_lsp with_mask with_spatial with_cross with_state with_lsps].
    split; [reflexivity|]. exists ut, bs, Cm, Sm, Lx, Ls, mask. repeat split; try assumption.
    intros _. exists l. split; [exact EL|reflexivity].
Qed.

(* ---- C68: exactly co-located UTs in the same state make a topology change fail ---- *)
Lemma scenario_update sc c a dr st : constructed sc -> set_topology sc (c_st c) (channel_args a) dr = (st, Ok true) ->
  exists ut bs Cm Sm mask, s_ut_loc st = Some ut /\ s_bs_loc st = Some bs /\ t_num bs = 1%nat /\ t_batch ut = t_batch bs /\
    cross_matrix st = Ok Cm /\ spatial_matrix st = Ok Sm /\ compute_clusters_mask st = Ok mask /\
    (exists Lx, cholesky_all (t_batch ut) (t_num bs) (t_num ut) 7 Cm = Ok Lx) /\
    (exists ls, s_lsp st = Some ls) /\
    forall b s i, symmetric (t_num ut) (Sm b s i) \/ (7 <= i)%nat.
Proof.
  intros Hc H. assert (Ha := constructed_accepted sc Hc).
  destruct (update_content _ _ _ _ _ Ha H) as (ut & bs & ind & p & U1 & U2 & U3 & U4 & U5 & U6 & _ & _ & _ & _ & _ & _ &
    (los & L1 & _ & cl & cn & K1 & K2 & K3 & _) & _).
  destruct (C19_l sc _ _ _ _ Hc H) as (los1 & Cm & E1 & E2 & P19).
  destruct (C20_l sc _ _ _ _ Hc H) as (ut2 & ind2 & los2 & Sm & F1 & F2 & F3 & F4 & P20).
  assert (ut2 = ut) by congruence. subst ut2.
  exists ut, bs, Cm, Sm. unfold compute_clusters_mask. rewrite K3, L1, U3. eexists.
  split; [exact U1|]. split; [exact U2|]. split; [exact U5|]. split; [exact U4|]. split; [exact E2|].
  split; [exact F4|]. split; [reflexivity|]. split.
  - destruct (cholesky_all_ok (t_batch ut) (t_num bs) (t_num ut) 7 Cm) as [[A _] _].
    + intros b s k _ _ _. destruct (P19 b s k) as [Q _]. exact Q.
    + apply A. intros b s k _ _ _. destruct (P19 b s k) as (_ & _ & _ & _ & _ & Q). exact Q.
  - split; [eauto|]. intros b s i. destruct (le_lt_dec 7 i) as [|Hi]; [right; assumption|left].
    destruct (lsp_index_of i Hi) as (X & HX). destruct (P20 b s X i HX) as [Q _]. exact Q.
Qed.

Lemma C68_l sc always c a dr z st : constructed sc -> set_topology sc (c_st c) (channel_args a) dr = (st, Ok true) ->
  exists ut ind los, s_ut_loc st = Some ut /\ s_in st = Some ind /\ s_los st = Some los /\
  (snd (chan_set_topology sc always c a dr z) = Ok tt <->
   forall b u u', (b < t_batch ut)%nat -> (u < t_num ut)%nat -> (u' < t_num ut)%nat -> u <> u' ->
     state_of (t_at ind b u) (los b 0%nat u) = state_of (t_at ind b u') (los b 0%nat u') ->
     vx (t_at ut b u) <> vx (t_at ut b u') \/ vy (t_at ut b u) <> vy (t_at ut b u')).
Proof.
  intros Hc H.
  destruct (scenario_update sc c a dr st Hc H) as (ut & bs & Cm & Sm & mask & U & B & B1 & B2 & EC & ES & EM & (Lx & EX) & (ls & LS) & Sy).
  destruct (C20_l sc _ _ _ _ Hc H) as (ut2 & ind & los & Sm2 & F1 & F2 & F3 & F4 & P20).
  assert (ut2 = ut) by congruence. subst ut2. assert (Sm2 = Sm) by congruence. subst Sm2.
  exists ut, ind, los. split; [exact U|]. split; [exact F2|]. split; [exact F3|].
  assert (SyR : forall b s k, (b < t_batch ut)%nat -> (s < t_num bs)%nat -> (k < 7)%nat -> symmetric (t_num ut) (Sm b s k)).
  { intros b s k _ _ Hk. destruct (Sy b s k); [assumption|lia]. }
  destruct (cholesky_all_ok (t_batch ut) (t_num bs) 7 (t_num ut) Sm SyR) as [Iff _].
  assert (R : snd (chan_set_topology sc always c a dr z) = Ok tt <->
     exists Ls, cholesky_all (t_batch ut) (t_num bs) 7 (t_num ut) Sm = Ok Ls).
  { unfold chan_set_topology. rewrite H. unfold sizes. rewrite U, B, EC. cbn [bind]. rewrite EX, ES. cbn [bind].
    destruct (cholesky_all (t_batch ut) (t_num bs) 7 (t_num ut) Sm) as [Ls|e].
    - rewrite EM. destruct always; [cbn; split; eauto|].
      unfold lsp_sampler. cbn [c_st c_cross c_spatial with_mask with_spatial with_cross with_state]. rewrite U.
      unfold sample_lsp. rewrite LS. cbn. split; eauto.
    - cbn. split; [discriminate|intros [? ?]; discriminate]. }
  rewrite R, <- Iff. rewrite B1. split.
  - intros HL b u u' Hb Hu Hu' Ne E. destruct (HL b 0%nat 0%nat Hb ltac:(lia) ltac:(lia)) as [L HLL].
    destruct (P20 b 0%nat "DS" 0%nat LI_DS) as (_ & _ & _ & _ & _ & _ & Q). apply (proj1 Q (ex_intro _ L HLL) u u'); assumption.
  - intros HP b s k Hb Hs Hk. assert (s = 0%nat) by lia. subst s. destruct (lsp_index_of k Hk) as (X & HX).
    destruct (P20 b 0%nat X k HX) as (_ & _ & _ & _ & _ & _ & Q). apply Q. intros u u' Hu Hu'. apply HP; assumption.
Qed.

(* ---- histories ---- *)
Lemma chan_run_app sc al c o1 o2 : chan_run sc al c (o1 ++ o2) = chan_run sc al (chan_run sc al c o1) o2.
Proof. apply fold_left_app. Qed.

Lemma quiet sc al after : forall c, (forall a' dr' z', In (SetTopology a' dr' z') after -> ~ changes_topology a') ->
  let c' := chan_run sc al c after in
  same_topology (c_st c') (c_st c) /\ c_cross c' = c_cross c /\ c_spatial c' = c_spatial c /\
  c_mask c' = c_mask c /\ c_lsp c' = c_lsp c.
Proof.
  induction after as [|o after IH]; intros c H; [cbn; split; [apply same_topology_refl|auto]|].
  cbn [chan_run fold_left]. change (fold_left (chan_step sc al) after (chan_step sc al c o)) with (chan_run sc al (chan_step sc al c o) after).
  destruct (IH (chan_step sc al c o)) as (A & B & C & D & E); [intros; eapply H; right; eassumption|].
  destruct o as [a dr z|fs d]; cbn [chan_step] in *; [|auto].
  destruct (no_change sc al c a dr z (H a dr z (or_introl eq_refl))) as (A' & B' & C' & D' & E').
  cbv zeta in *. split; [eapply same_topology_trans; eassumption|]. repeat split; congruence.
Qed.

(* the state of the object after a settled history *)
Lemma settled_state sc al ops a dr z : settled sc al ops a dr z ->
  exists c0 st' ut bs Cm Sm Lx Ls mask,
    set_topology sc (c_st c0) (channel_args a) dr = (st', Ok true) /\
    s_ut_loc st' = Some ut /\ s_bs_loc st' = Some bs /\ cross_matrix st' = Ok Cm /\ spatial_matrix st' = Ok Sm /\
    cholesky_all (t_batch ut) (t_num bs) (t_num ut) 7 Cm = Ok Lx /\
    cholesky_all (t_batch ut) (t_num bs) 7 (t_num ut) Sm = Ok Ls /\ compute_clusters_mask st' = Ok mask /\
    let c := chan_run sc al (chan_init sc) ops in
    same_topology (c_st c) st' /\ c_cross c = Some Lx /\ c_spatial c = Some Ls /\ c_mask c = Some mask /\
    (al = false -> exists l, sample_lsp st' (t_num ut) Lx Ls z = Ok l /\ c_lsp c = Some l).
Proof.
  intros (before & after & -> & Ch & Ok1 & N).
  set (c0 := chan_run sc al (chan_init sc) before) in *.
  destruct (chan_set_topology sc al c0 a dr z) as [c1 r] eqn:E. cbn [snd] in Ok1. subst r.
  destruct (change_ok sc al c0 a dr z c1 E Ch) as (H1 & ut & bs & Cm & Sm & Lx & Ls & mask & A1 & A2 & A3 & A4 & A5 & A6 & A7 & A8 & A9 & A10 & A11).
  exists c0, (c_st c1), ut, bs, Cm, Sm, Lx, Ls, mask. do 8 (split; [assumption|]). cbv zeta.
  rewrite chan_run_app. fold c0. cbn [chan_run fold_left chan_step]. rewrite E. cbn [fst].
  change (fold_left (chan_step sc al) after c1) with (chan_run sc al c1 after).
  destruct (quiet sc al after c1 N) as (B1 & B2 & B3 & B4 & B5).
  split; [exact B1|]. split; [congruence|]. split; [congruence|]. split; [congruence|].
  intros F. destruct (A11 F) as (l & L1 & L2). exists l. split; [exact L1|congruence].
Qed.

Lemma sample_lsp_same st st' n Lx Ls z : s_lsp st = s_lsp st' -> sample_lsp st n Lx Ls z = sample_lsp st' n Lx Ls z.
Proof. unfold sample_lsp. intros ->. reflexivity. Qed.

(* ---- C10 ---- *)
Lemma C10_cached_l srt srtd ua ba sc ops a dr z fs d : settled sc false ops a dr z ->
  let c := chan_run sc false (chan_init sc) ops in
  (forall z', chan_call srt srtd sc ua ba false c fs (with_lsp_draws z' d) = chan_call srt srtd sc ua ba false c fs d) /\
  chan_call srt srtd sc ua ba false c fs d = chan_call srt srtd sc ua ba true c fs (with_lsp_draws z d).
Proof.
  intros H. cbv zeta. split; [reflexivity|].
  destruct (settled_state _ _ _ _ _ _ H) as (c0 & st' & ut & bs & Cm & Sm & Lx & Ls & mask & H1 & U & B & _ & _ & _ & _ & _ & S & X & Y & M & L).
  cbv zeta in *. set (c := chan_run sc false (chan_init sc) ops) in *.
  destruct (L eq_refl) as (l & L1 & L2). destruct S as (S1 & S2 & S3 & S4 & S5 & S6 & S7 & _).
  unfold chan_call. rewrite L2. unfold lsp_sampler. rewrite S1, U, X, Y. cbn [cd_lsp with_lsp_draws].
  rewrite (sample_lsp_same _ _ _ _ _ _ S6), L1. reflexivity.
Qed.

Lemma outcomes_app sc al o1 : forall c o2, outcomes sc al c (o1 ++ o2) = outcomes sc al c o1 ++ outcomes sc al (chan_run sc al c o1) o2.
Proof.
  induction o1 as [|o o1 IH]; intros c o2; [reflexivity|]. destruct o as [a dr z|fs d]; cbn [outcomes app].
  - rewrite IH. reflexivity.
  - rewrite IH. reflexivity.
Qed.

Lemma C10_kept_l sc ops after :
  (forall a r, In (a, r) (outcomes sc false (chan_run sc false (chan_init sc) ops) after) -> changes_topology a -> r <> Ok tt) ->
  c_lsp (chan_run sc false (chan_init sc) (ops ++ after)) = c_lsp (chan_run sc false (chan_init sc) ops).
Proof.
  rewrite chan_run_app. generalize (chan_run sc false (chan_init sc) ops) as c. clear ops.
  induction after as [|o after IH]; intros c H; [reflexivity|].
  destruct o as [a dr z|fs d].
  2:{ apply (IH c). exact H. }
  change (chan_run sc false c (SetTopology a dr z :: after)) with (chan_run sc false (chan_step sc false c (SetTopology a dr z)) after).
  cbn [outcomes] in H. rewrite IH by (intros a' r' I; apply H; right; exact I).
  cbn [chan_step]. destruct (snd (chan_set_topology sc false c a dr z)) as [[]|e] eqn:E.
  - assert (N : ~ changes_topology a) by (intros Ch; apply (H a (Ok tt)); [left; reflexivity|exact Ch|reflexivity]).
    destruct (no_change sc false c a dr z N) as (_ & _ & _ & _ & Q). exact Q.
  - apply (failed_keeps_lsp sc false c a dr z e E).
Qed.

Lemma C10_fresh_l srt srtd ua ba sc ops a dr z fs d : settled sc true ops a dr z ->
  let c := chan_run sc true (chan_init sc) ops in
  (forall z', chan_set_topology sc true c a dr z' = chan_set_topology sc true c a dr z) /\
  exists l, lsp_sampler c (cd_lsp d) = Ok l /\
    chan_call srt srtd sc ua ba true c fs d = chan_call srt srtd sc ua ba false (with_lsps c l) fs d.
Proof.
  intros H. cbv zeta. split; [reflexivity|].
  destruct (settled_state _ _ _ _ _ _ H) as (c0 & st' & ut & bs & Cm & Sm & Lx & Ls & mask & H1 & U & B & CM & _ & _ & _ & _ & S & X & Y & M & _).
  cbv zeta in *. set (c := chan_run sc true (chan_init sc) ops) in *. destruct S as (S1 & S2 & S3 & S4 & S5 & S6 & S7 & _).
  assert (E : exists l, lsp_sampler c (cd_lsp d) = Ok l).
  { unfold lsp_sampler. rewrite S1, U, X, Y. unfold sample_lsp. rewrite S6. unfold cross_matrix in CM.
    destruct (s_lsp st'); [eauto|discriminate]. }
  destruct E as [l E]. exists l. split; [exact E|]. unfold chan_call. rewrite E. reflexivity.
Qed.

(* ---- C11 ---- *)
Lemma C11_raises_l srt srtd ua ba sc al ops fs d :
  (forall a r, In (a, r) (outcomes sc al (chan_init sc) ops) -> exists e, r = Err e) ->
  exists e, chan_call srt srtd sc ua ba al (chan_run sc al (chan_init sc) ops) fs d = Err e.
Proof.
  intros H. assert (I : (if al then c_mask (chan_run sc al (chan_init sc) ops) = None else c_lsp (chan_run sc al (chan_init sc) ops) = None)).
  { assert (I0 : if al then c_mask (chan_init sc) = None else c_lsp (chan_init sc) = None) by (destruct al; reflexivity).
    revert H I0. generalize (chan_init sc) as c. induction ops as [|o ops IH]; intros c H I0; [exact I0|].
    destruct o as [a dr z|fs' d']; [|exact (IH c H I0)].
    change (chan_run sc al c (SetTopology a dr z :: ops)) with (chan_run sc al (chan_step sc al c (SetTopology a dr z)) ops).
    cbn [outcomes] in H. apply IH; [intros a' r' J; apply (H a'); right; exact J|].
    destruct (H a (snd (chan_set_topology sc al c a dr z)) (or_introl eq_refl)) as [e E].
    destruct (failed_keeps_lsp sc al c a dr z e E) as [K1 K2]. cbn [chan_step].
    destruct al; [rewrite (K2 eq_refl); exact I0|rewrite K1; exact I0]. }
  set (c := chan_run sc al (chan_init sc) ops) in *. unfold chan_call. destruct al.
  - destruct (lsp_sampler c (cd_lsp d)) as [l|e]; cbn [bind]; [|eauto]. rewrite I. cbn [bind]. eauto.
  - rewrite I. cbn [bind]. eauto.
Qed.

(* a call after a settled history is defined *)
Lemma call_defined srt srtd ua ba sc al ops a dr z fs d : constructed sc -> settled sc al ops a dr z ->
  exists out, chan_call srt srtd sc ua ba al (chan_run sc al (chan_init sc) ops) fs d = Ok out.
Proof.
  intros Hc H. assert (Ha := constructed_accepted sc Hc).
  destruct (settled_state _ _ _ _ _ _ H) as (c0 & st' & ut & bs & Cm & Sm & Lx & Ls & mask & H1 & U & B & _ & _ & _ & _ & _ & S & X & Y & M & L).
  cbv zeta in *. set (c := chan_run sc al (chan_init sc) ops) in *.
  destruct (update_content _ _ _ _ _ Ha H1) as (ut2 & bs2 & ind & p & U1 & U2 & U3 & U4 & U5 & U6 & _ & _ & _ & _ & _ & (g & G1 & _) &
    (los & L1 & _ & cl & cn & K1 & K2 & K3 & pl & K4 & _) & _).
  assert (bs2 = bs) by congruence. subst bs2.
  assert (ORI : s_ut_vel st' <> None /\ s_ut_ori st' <> None /\ s_bs_ori st' <> None).
  { destruct (complete_call (c_st c0) (channel_args a)) eqn:C.
    - destruct (step_cases _ _ _ _ _ _ Ha H1) as [(C' & _) | (_ & _ & I & _)]; [congruence|].
      unfold complete_call in C. rewrite !andb_true_iff in C. destruct C as (((((_ & _) & _) & C4) & C5) & C6).
      destruct (given_or _ _ C4) as [? Q4]. destruct (given_or _ _ C5) as [? Q5]. destruct (given_or _ _ C6) as [? Q6].
      unfold same_inputs in I. cbn [store_args s_ut_vel s_ut_ori s_bs_ori] in I. intuition congruence.
    - destruct (set_topology_incomplete sc (c_st c0) (channel_args a) dr C) as (m & E). rewrite H1 in E. discriminate. }
  destruct S as (S1 & S2 & S3 & S4 & S5 & S6 & S7 & S8 & S9 & S10). destruct ORI as (O1 & O2 & O3).
  specialize (S8 O2). specialize (S9 O3). specialize (S10 O1).
  unfold chan_call.
  assert (LS : exists l, (if al then lsp_sampler c (cd_lsp d)
           else match c_lsp c with Some l => Ok l | None => Err (AttributeError "_lsp") end) = Ok l).
  { destruct al.
    - unfold lsp_sampler. rewrite S1, U, X, Y. unfold sample_lsp. rewrite S6, K3. eauto.
    - destruct (L eq_refl) as (l & _ & L2). rewrite L2. eauto. }
  destruct LS as [l LS]. rewrite LS. cbn [bind]. rewrite M. cbn [bind].
  unfold gen_rays. rewrite S6, K3, S5, L1, S4, G1, S3, U3, S2, B. cbn [bind].
  destruct (s_ut_vel (c_st c)); [|congruence]. destruct (s_ut_ori (c_st c)); [|congruence].
  destruct (s_bs_ori (c_st c)); [|congruence].
  rewrite U5. cbn [Nat.eqb negb]. unfold sample_pathloss. rewrite S7, K4. cbn [bind].
  destruct (sc_pathloss sc); cbn [bind]; eauto.
Qed.

Lemma last_change sc al ops : constructed sc -> (forall a r, In (a, r) (outcomes sc al (chan_init sc) ops) -> r = Ok tt) ->
  outcomes sc al (chan_init sc) ops <> [] -> exists a dr z, settled sc al ops a dr z.
Proof.
  intros Hc. assert (Ha := constructed_accepted sc Hc).
  induction ops as [|o ops IH] using rev_ind; intros H N; [contradiction|].
  rewrite outcomes_app in H, N.
  destruct o as [a dr z|fs d].
  - set (c := chan_run sc al (chan_init sc) ops) in *. cbn [outcomes] in H.
    assert (R : snd (chan_set_topology sc al c a dr z) = Ok tt) by (apply (H a); apply in_or_app; right; left; reflexivity).
    destruct (need_for_update (channel_args a)) eqn:CH.
    + exists a, dr, z, ops, []. split; [reflexivity|]. split; [apply changes_iff; exact CH|].
      split; [exact R|intros ? ? ? []].
    + assert (NC : ~ changes_topology a) by (rewrite changes_iff; congruence).
      destruct (outcomes sc al (chan_init sc) ops) as [|x rest] eqn:EO.
      * (* nothing before: the object is fresh, so the call is incomplete *)
        exfalso. assert (F : c = chan_init sc).
        { unfold c. revert EO. generalize (chan_init sc) as c1. clear. induction ops as [|o ops IH]; [reflexivity|].
          destruct o; [discriminate|]. intros c1 E. apply (IH c1). exact E. }
        rewrite F in R. unfold chan_set_topology in R.
        assert (C : complete_call (c_st (chan_init sc)) (channel_args a) = false).
        { unfold complete_call, need_for_update, channel_args in *. cbn in *. rewrite !orb_false_iff in CH.
          destruct CH as (((C1 & _) & _) & _). rewrite C1. reflexivity. }
        destruct (set_topology_incomplete sc _ _ dr C) as (m & E). rewrite E in R. discriminate.
      * destruct IH as (a1 & dr1 & z1 & before & after & E1 & Ch1 & R1 & N1).
        { intros a' r' I. apply (H a'). apply in_or_app. left. exact I. }
        { discriminate. }
        exists a1, dr1, z1, before, (after ++ [SetTopology a dr z]). split; [rewrite E1, <- app_assoc; reflexivity|].
        split; [exact Ch1|]. split; [exact R1|]. intros a' dr' z' I. apply in_app_or in I. destruct I as [I|[I|[]]]; [eapply N1; exact I|].
        injection I as <- <- <-. exact NC.
  - cbn [outcomes] in H, N. rewrite app_nil_r in H, N.
    destruct (IH H N) as (a1 & dr1 & z1 & before & after & E1 & Ch1 & R1 & N1).
    exists a1, dr1, z1, before, (after ++ [Call fs d]). split; [rewrite E1, <- app_assoc; reflexivity|].
    split; [exact Ch1|]. split; [exact R1|]. intros a' dr' z' I. apply in_app_or in I. destruct I as [I|[I|[]]]; [eapply N1; exact I|discriminate].
Qed.

Lemma C11_defined_l srt srtd ua ba sc al ops fs d : constructed sc ->
  (forall a r, In (a, r) (outcomes sc al (chan_init sc) ops) -> r = Ok tt) -> outcomes sc al (chan_init sc) ops <> [] ->
  exists out, chan_call srt srtd sc ua ba al (chan_run sc al (chan_init sc) ops) fs d = Ok out.
Proof.
  intros Hc H N. destruct (last_change sc al ops Hc H N) as (a & dr & z & S). eapply call_defined; eassumption.
Qed.

(* a failed topology change followed by a call without arguments: reported as a success, but the object is unusable *)
Definition no_args : topo_args :=
  {| a_ut_loc := None; a_bs_loc := None; a_ut_ori := None; a_bs_ori := None; a_ut_vel := None; a_in := None; a_los := None;
     a_weather := no_weather; a_doppler := None |}.

Lemma two_uts_scenario sc st d dr : constructed sc -> exists st',
  set_topology sc st (channel_args (two_uts d)) dr = (st', Ok true) /\ s_ut_loc st' = Some (T 1 2 (fun _ u => V3 (d * INR u) 0 1.5)) /\
  s_in st' = Some (T 1 2 (fun _ _ => false)) /\ (exists los, s_los st' = Some los /\ forall b s u, los b s u = true).
Proof.
  intros Hc. assert (Ha := constructed_accepted sc Hc).
  destruct (full_call sc st (T 1 2 (fun _ u => V3 (d * INR u) 0 1.5)) (t1 (V3 0 0 600000)) (T 1 2 (fun _ _ => V3 0 0 0)) (t1 (V3 0 0 0))
     (T 1 2 (fun _ _ => V3 0 0 0)) (T 1 2 (fun _ _ => false)) (Some true) no_weather None dr Ha eq_refl eq_refl (le_n 1) eq_refl eq_refl)
    as (st' & H & A & B & _ & _ & _ & C).
  exists st'. split; [exact H|]. split; [exact A|]. split; [exact C|].
  destruct (update_content _ _ _ _ _ Ha H) as (ut & bs & ind & p & _ & _ & U3 & _ & _ & _ & _ & _ & _ & _ & _ & _ & (los & L1 & L2 & _) & _).
  exists los. split; [exact L1|]. intros b s u. rewrite L2. assert (ind = T 1 2 (fun _ _ => false)) by congruence. subst ind.
  unfold sample_los. cbn.
  destruct (step_cases _ _ _ _ _ _ Ha H) as [(_ & _ & [m Hm]) | (_ & _ & I & _)]; [discriminate|].
  destruct I as (_ & _ & _ & _ & _ & _ & I7 & _). rewrite I7. reflexivity.
Qed.

Lemma two_uts_outcome sc al c d dr z : constructed sc ->
  snd (chan_set_topology sc al c (two_uts d) dr z) = Ok tt <-> d <> 0.
Proof.
  intros Hc. destruct (two_uts_scenario sc (c_st c) d dr Hc) as (st' & H & A & B & (los & L & LL)).
  destruct (C68_l sc al c (two_uts d) dr z st' Hc H) as (ut & ind & los2 & A1 & B1 & L1 & Iff).
  assert (ut = T 1 2 (fun _ u => V3 (d * INR u) 0 1.5)) by congruence. subst ut.
  assert (ind = T 1 2 (fun _ _ => false)) by congruence. subst ind. assert (los2 = los) by congruence. subst los2.
  rewrite Iff. cbn [t_batch t_num t_at vx vy]. split.
  - intros K -> . destruct (K 0 0 1)%nat as [Q|Q]; try lia; [rewrite !LL; reflexivity|cbn in Q; lra|lra].
  - intros D b u u' Hb Hu Hu' Ne _. left. intros E. apply Ne.
    assert (INR u = INR u') by (apply (Rmult_eq_reg_l d); assumption). apply INR_eq. assumption.
Qed.

Lemma C11_refuted_l sc al (dr : topo_draws) (z : grid (nat -> R)) : constructed sc -> exists ops r,
  outcomes sc al (chan_init sc) ops = r ++ [(no_args, Ok tt)] /\
  forall srt srtd ua ba fs d, exists e, chan_call srt srtd sc ua ba al (chan_run sc al (chan_init sc) ops) fs d = Err e.
Proof.
  intros Hc. assert (Ha := constructed_accepted sc Hc).
  exists [SetTopology (two_uts 0) dr z; SetTopology no_args dr z]. eexists.
  cbn [outcomes chan_step].
  set (c1 := fst (chan_set_topology sc al (chan_init sc) (two_uts 0) dr z)).
  assert (F : exists e, snd (chan_set_topology sc al (chan_init sc) (two_uts 0) dr z) = Err e).
  { destruct (snd (chan_set_topology sc al (chan_init sc) (two_uts 0) dr z)) as [[]|e] eqn:E; [|eauto].
    apply (two_uts_outcome sc al (chan_init sc) 0 dr z Hc) in E. lra. }
  destruct F as [e F].
  assert (C1 : complete_call (c_st c1) (channel_args no_args) = true).
  { unfold c1, chan_set_topology. destruct (two_uts_scenario sc (c_st (chan_init sc)) 0 dr Hc) as (st' & H & A & B & _).
    destruct (step_cases _ _ _ _ _ _ Ha H) as [(_ & _ & [m Hm]) | (_ & _ & I & _)]; [discriminate|].
    rewrite H. destruct (sizes st') as [[nb ns] nu].
    assert (CS : complete_call st' (channel_args no_args) = true).
    { unfold same_inputs in I. destruct I as (I1 & I2 & I3 & I4 & I5 & I6 & _).
      unfold complete_call. cbn [channel_args no_args a_ut_loc a_bs_loc a_in a_ut_ori a_bs_ori a_ut_vel given orb].
      rewrite I1, I2, I3, I4, I5, I6. reflexivity. }
    destruct (m <- cross_matrix st';; cholesky_all nb ns nu 7 m); [|exact CS].
    destruct (m <- spatial_matrix st';; cholesky_all nb ns 7 nu m); [|exact CS].
    destruct (compute_clusters_mask st'); [|exact CS].
    destruct al; [exact CS|]. destruct (lsp_sampler _ z); exact CS. }
  destruct (set_topology_complete sc (c_st c1) (channel_args no_args) dr C1) as (ut & bs & ind & _ & _ & _ & E).
  assert (OK : snd (chan_set_topology sc al c1 no_args dr z) = Ok tt) by (unfold chan_set_topology; rewrite E; reflexivity).
  split.
  - rewrite OK. change [(two_uts 0, snd (chan_set_topology sc al (chan_init sc) (two_uts 0) dr z)); (no_args, Ok tt)]
      with ([(two_uts 0, snd (chan_set_topology sc al (chan_init sc) (two_uts 0) dr z))] ++ [(no_args, Ok tt)]). reflexivity.
  - intros srt srtd ua ba fs d.
    change (chan_run sc al (chan_init sc) [SetTopology (two_uts 0) dr z; SetTopology no_args dr z])
      with (fst (chan_set_topology sc al c1 no_args dr z)).
    assert (NC : ~ changes_topology no_args) by (unfold changes_topology; cbn; tauto).
    destruct (no_change sc al c1 no_args dr z NC) as (_ & _ & _ & M & L). cbv zeta in M, L.
    destruct (failed_keeps_lsp sc al (chan_init sc) (two_uts 0) dr z e F) as [K1 K2].
    change (c_lsp c1 = None) in K1.
    set (c2 := fst (chan_set_topology sc al c1 no_args dr z)) in *. unfold chan_call. destruct al.
    + destruct (lsp_sampler c2 (cd_lsp d)) as [l|e']; cbn [bind]; [|eauto].
      assert (M0 : c_mask c2 = None) by (rewrite M; exact (K2 eq_refl)). rewrite M0. cbn [bind]. eauto.
    + assert (L0 : c_lsp c2 = None) by (rewrite L; exact K1). rewrite L0. cbn [bind]. eauto.
Qed.
