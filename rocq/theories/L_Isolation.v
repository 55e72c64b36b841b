(* An example of a batch depends on no other example, and a UT on no later UT. *)
From Coq Require Import Reals String List Bool Arith Lia Lra FunctionalExtensionality.
From Verif Require Import M_Base L_Base M_Params S_Config L_Params L_Config M_Geometry M_Pathloss M_Scenario
  M_Lsp S_Linear L_Linear S_Lsp S_Topology L_Scenario L_Fresh L_Topology L_Lsp M_Rays M_Antenna M_Cplx M_Coeff S_Coeff
  M_Channel S_Channel L_Chol L_Channel L_Link S_Isolation.
Import ListNotations.
Open Scope string_scope.
Open Scope list_scope.
Open Scope R_scope.

(* ---- the leading rows of a Cholesky factor depend on the leading rows of the matrix ---- *)
Lemma cholesky_lower n : forall A L, cholesky n A = Some L -> forall i j, (i < j)%nat -> L i j = 0.
Proof.
  induction n as [|n IH]; cbn [cholesky]; intros A L H i j Hij; [injection H as <-; reflexivity|].
  destruct (Rltb 0 (A 0%nat 0%nat)); [|discriminate].
  match type of H with match ?x with _ => _ end = _ => destruct x as [L'|] eqn:E; [|discriminate] end. injection H as <-.
  destruct i as [|i], j as [|j]; try lia; [reflexivity|]. apply (IH _ _ E). lia.
Qed.

Lemma cholesky_prefix m : forall n n' A A' L L', (m <= n)%nat -> (m <= n')%nat ->
  (forall i j, (i < m)%nat -> (j < m)%nat -> A i j = A' i j) ->
  cholesky n A = Some L -> cholesky n' A' = Some L' -> forall i j, (i < m)%nat -> L i j = L' i j.
Proof.
  induction m as [|m IH]; intros n n' A A' L L' Hn Hn' HA H H' i j Hi; [lia|].
  destruct (Nat.lt_ge_cases i j) as [Hij|Hij].
  { rewrite (cholesky_lower _ _ _ H _ _ Hij), (cholesky_lower _ _ _ H' _ _ Hij). reflexivity. }
  destruct n as [|n]; [lia|]. destruct n' as [|n']; [lia|]. cbn [cholesky] in H, H'.
  assert (A0 := HA 0%nat 0%nat ltac:(lia) ltac:(lia)). rewrite <- A0 in H'.
  destruct (Rltb 0 (A 0%nat 0%nat)); [|discriminate].
  match type of H with match ?x with _ => _ end = _ => destruct x as [M|] eqn:E; [|discriminate] end.
  match type of H' with match ?x with _ => _ end = _ => destruct x as [M'|] eqn:E'; [|discriminate] end.
  injection H as <-. injection H' as <-.
  destruct i as [|i], j as [|j]; try reflexivity.
  - rewrite (HA (S i) 0%nat) by lia. reflexivity.
  - refine (IH n n' _ _ M M' ltac:(lia) ltac:(lia) _ E E' i j ltac:(lia)).
    intros i' j' Hi' Hj'. rewrite (HA (S i') (S j')), (HA (S i') 0%nat), (HA (S j') 0%nat) by lia. reflexivity.
Qed.

Lemma cholesky_all_at n1 n2 n3 n A L b s k : cholesky_all n1 n2 n3 n A = Ok L -> (b < n1)%nat -> (s < n2)%nat -> (k < n3)%nat ->
  cholesky n (A b s k) = Some (L b s k).
Proof.
  unfold cholesky_all. intros H Hb Hs Hk.
  destruct (all_below n1 _) eqn:E; [|discriminate]. injection H as <-.
  unfold all_below in E. rewrite forallb_forall in E. specialize (E b ltac:(apply in_seq; lia)).
  rewrite forallb_forall in E. specialize (E s ltac:(apply in_seq; lia)).
  rewrite forallb_forall in E. specialize (E k ltac:(apply in_seq; lia)).
  destruct (cholesky n (A b s k)); [reflexivity|discriminate].
Qed.

Lemma sumR_prefix n f m : (m <= n)%nat -> (forall i, (m <= i)%nat -> f i = 0) -> sumR n f = sumR m f.
Proof.
  intros H Z. induction H as [|n H IH]; [reflexivity|]. rewrite sumR_S, IH, (Z n) by lia. ring.
Qed.

(* ---- what later calls leave alone ---- *)
Lemma no_change_req sc al c a dr z : ~ changes_topology a ->
  s_req_los (c_st (fst (chan_set_topology sc al c a dr z))) = s_req_los (c_st c).
Proof.
  intros N. rewrite changes_iff, not_true_iff_false in N. unfold chan_set_topology.
  destruct (complete_call (c_st c) (channel_args a)) eqn:C.
  - destruct (set_topology_complete sc (c_st c) (channel_args a) dr C) as (ut & bs & ind & E1 & E2 & E3 & E).
    rewrite E, N. cbn [fst]. unfold need_for_update, channel_args in N; cbn in N. rewrite !orb_false_iff in N.
    destruct N as (_ & N4). cbn. destruct (a_los a); [discriminate|reflexivity].
  - destruct (set_topology_incomplete sc (c_st c) (channel_args a) dr C) as (m & E). rewrite E. reflexivity.
Qed.

Lemma quiet_req sc al after : forall c, (forall a' dr' z', In (SetTopology a' dr' z') after -> ~ changes_topology a') ->
  s_req_los (c_st (chan_run sc al c after)) = s_req_los (c_st c).
Proof.
  induction after as [|o after IH]; intros c H; [reflexivity|].
  cbn [chan_run fold_left]. change (fold_left (chan_step sc al) after (chan_step sc al c o)) with (chan_run sc al (chan_step sc al c o) after).
  rewrite IH by (intros; eapply H; right; eassumption).
  destruct o as [a dr z|fs d]; cbn [chan_step]; [|reflexivity]. apply no_change_req. apply (H a dr z). left; reflexivity.
Qed.

Lemma set_topology_doppler sc st a dr : a_doppler a = None -> s_doppler (fst (set_topology sc st a dr)) = s_doppler st.
Proof.
  intros H. unfold set_topology.
  repeat match goal with |- context [if ?b then (st, _) else _] => destruct b; [reflexivity|] end. cbv zeta.
  destruct (need_for_update a); [|cbn; rewrite H; reflexivity].
  destruct (s_ut_loc (store_args st a)); [|cbn; rewrite H; reflexivity].
  destruct (s_bs_loc (store_args st a)); [|cbn; rewrite H; reflexivity].
  destruct (s_in (store_args st a)); [|cbn; rewrite H; reflexivity].
  unfold update_topology.
  repeat match goal with |- context [match ?x with Ok _ => _ | Err _ => _ end] => destruct x end; cbn; rewrite H; reflexivity.
Qed.

Lemma chan_doppler sc al ops : forall c, s_doppler (c_st (chan_run sc al c ops)) = s_doppler (c_st c).
Proof.
  induction ops as [|o ops IH]; intros c; [reflexivity|].
  cbn [chan_run fold_left]. change (fold_left (chan_step sc al) ops (chan_step sc al c o)) with (chan_run sc al (chan_step sc al c o) ops).
  rewrite IH. destruct o as [a dr z|fs d]; cbn [chan_step]; [|reflexivity].
  unfold chan_set_topology. pose proof (set_topology_doppler sc (c_st c) (channel_args a) dr eq_refl) as D.
  destruct (set_topology sc (c_st c) (channel_args a) dr) as [st [[|]|e']]; cbn [fst] in D; [|exact D|exact D].
  destruct (sizes st) as [[nb ns] nu].
  destruct (m <- cross_matrix st;; cholesky_all nb ns nu 7 m); [|exact D].
  destruct (m <- spatial_matrix st;; cholesky_all nb ns 7 nu m); [|exact D].
  destruct (compute_clusters_mask st); [|exact D]. destruct al; [exact D|]. destruct (lsp_sampler _ z); exact D.
Qed.

(* ---- what a settled object holds ---- *)
Lemma settled_content sc al ops a dr z : constructed sc -> settled sc al ops a dr z ->
  let c := chan_run sc al (chan_init sc) ops in
  exists ut bs ind p g los cl cn ls pl Lx Ls,
    s_ut_loc (c_st c) = Some ut /\ s_bs_loc (c_st c) = Some bs /\ s_in (c_st c) = Some ind /\
    t_batch ut = t_batch bs /\ t_num bs = 1%nat /\
    documented_value (sc_env sc) (sc_fc sc) (sc_dir sc) (sc_elev sc) true "LoS_p" (Fin p) /\
    s_geo (c_st c) = Some g /\
    (forall b s u, g_d3d g b s u = slant_range (sc_elev sc) (vz (t_at bs 0%nat 0%nat)) /\
       g_aod g b s u = los_aod (t_at ut b u) (t_at bs b s) /\ g_aoa g b s u = los_aoa (t_at ut b u) (t_at bs b s) /\
       g_zod g b s u = los_zod (t_at ut b u) (t_at bs b s) /\ g_zoa g b s u = los_zoa (t_at ut b u) (t_at bs b s)) /\
    (forall b u u', g_utd g b u u' = dist_2d (t_at ut b u') (t_at ut b u)) /\
    s_los (c_st c) = Some los /\ los = sample_los (s_req_los (c_st c)) p ind (dr_los dr) /\
    link_column sc true = Ok cl /\ link_column sc false = Ok cn /\
    s_lsp (c_st c) = Some ls /\
    ls = {| ls_col := fun x : bool => if x then cl else cn;
            ls_mean := fun b s u i => lsp_log_mean (if los b s u then cl else cn) i;
            ls_std := fun b s u i => lsp_log_std (if los b s u then cl else cn) i;
            ls_zod_offset := fun b s u => zod_offset_of (los b s u) (dist_2d (t_at ut b u) (t_at bs b s)) |} /\
    s_pl (c_st c) = Some pl /\
    compute_pathlosses sc (set_weather no_weather) (fun _ _ _ => slant_range (sc_elev sc) (vz (t_at bs 0%nat 0%nat))) los (dr_z_los dr) (dr_z_nlos dr) = Ok pl /\
    c_cross c = Some Lx /\ c_spatial c = Some Ls /\
    c_mask c = Some (fun b s u => cluster_mask (n_clusters ls true) (n_clusters ls false) (t_at ind b u) (los b s u)) /\
    (forall b u, (b < t_batch ut)%nat -> (u < t_num ut)%nat -> cholesky 7 (cross_corr (ls_col ls (los b 0%nat u))) = Some (Lx b 0%nat u)) /\
    (forall b i, (b < t_batch ut)%nat -> (i < 7)%nat ->
       cholesky (t_num ut) (spatial_corr (t_at ind b) (los b 0%nat) (g_utd g b) (fun u i => corr_dist (ls_col ls (los b 0%nat u)) i) i) = Some (Ls b 0%nat i)) /\
    (al = false -> exists l, sample_lsp (c_st c) (t_num ut) Lx Ls z = Ok l /\ c_lsp c = Some l) /\
    s_doppler (c_st c) = sc_doppler sc.
Proof.
  intros Hc Hs c. assert (Ha := constructed_accepted sc Hc).
  destruct Hs as (before & after & E & Ch & Ok1 & N).
  set (c0 := chan_run sc al (chan_init sc) before) in *.
  destruct (chan_set_topology sc al c0 a dr z) as [c1 r] eqn:E1. cbn [snd] in Ok1. subst r.
  destruct (change_ok sc al c0 a dr z c1 E1 Ch) as (ST & ut & bs & Cm & Sm & Lx & Ls & mask & A1 & A2 & A3 & A4 & A5 & A6 & A7 & A8 & A9 & A10 & A11).
  assert (C : c = chan_run sc al c1 after).
  { unfold c. rewrite E, chan_run_app. fold c0. cbn [chan_run fold_left chan_step]. rewrite E1. reflexivity. }
  destruct (quiet sc al after c1 N) as (B1 & B2 & B3 & B4 & B5). assert (B6 := quiet_req sc al after c1 N).
  rewrite <- C in B1, B2, B3, B4, B5, B6. destruct B1 as (S1 & S2 & S3 & S4 & S5 & S6 & S7 & _).
  destruct (update_content _ _ _ _ _ Ha ST) as (ut' & bs' & ind & p & X1 & X2 & X3 & X4 & X5 & X6 & X7 & X8 & X9 & X10 & X11 &
    (g & G0 & G1 & G2 & G3 & G4 & G5 & G6) & (los & L1 & L2 & cl & cn & K1 & K2 & K3 & pl & P1 & P2) & _).
  assert (ut' = ut) by congruence. subst ut'. assert (bs' = bs) by congruence. subst bs'.
  set (ls := {| ls_col := fun x : bool => if x then cl else cn; ls_mean := _; ls_std := _; ls_zod_offset := _ |}) in K3.
  exists ut, bs, ind, p, g, los, cl, cn, ls, pl, Lx, Ls.
  split; [congruence|]. split; [congruence|]. split; [congruence|]. split; [assumption|]. split; [assumption|]. split; [assumption|].
  split; [congruence|]. split; [intros; repeat split; auto|]. split; [assumption|]. split; [congruence|].
  split; [rewrite B6; assumption|]. split; [assumption|]. split; [assumption|]. split; [congruence|]. split; [reflexivity|].
  split; [congruence|]. split; [exact P2|]. split; [congruence|]. split; [congruence|].
  split. { rewrite B4, A10. f_equal. unfold compute_clusters_mask in A7. rewrite K3, L1, X3 in A7. congruence. }
  unfold cross_matrix in A3. rewrite K3, L1 in A3. injection A3 as <-.
  unfold spatial_matrix in A4. rewrite K3, L1, G0, X3 in A4. injection A4 as <-.
  split. { intros b u Hb Hu. exact (cholesky_all_at _ _ _ _ _ _ b 0%nat u A5 Hb ltac:(lia) Hu). }
  split. { intros b i Hb Hi. exact (cholesky_all_at _ _ _ _ _ _ b 0%nat i A6 Hb ltac:(lia) Hi). }
  split. { intros F. destruct (A11 F) as (l & Q1 & Q2). exists l. split; [|congruence]. rewrite <- Q1. apply sample_lsp_same. congruence. }
  unfold c. rewrite chan_doppler. reflexivity.
Qed.

Lemma make_lsp_ext mean std v v' : (forall i, (i < 7)%nat -> v i = v' i) -> make_lsp mean std v = make_lsp mean std v'.
Proof. intros H. unfold make_lsp. rewrite !H by lia. reflexivity. Qed.

Lemma C90_l : forall srt srtd ua ba sc al ops ops' a a' dr dr' z z' fs d d' m b b',
  constructed sc -> settled sc al ops a dr z -> settled sc al ops' a' dr' z' ->
  let c := chan_run sc al (chan_init sc) ops in
  let c' := chan_run sc al (chan_init sc) ops' in
  same_example m b b' (c_st c) (c_st c') -> same_topo_draws m b b' dr dr' ->
  (if al then same_lsp_draws m b b' (cd_lsp d) (cd_lsp d') else same_lsp_draws m b b' z z') ->
  same_call_draws (sc_dir sc) m b b' d d' ->
  exists o o', chan_call srt srtd sc ua ba al c fs d = Ok o /\ chan_call srt srtd sc ua ba al c' fs d' = Ok o' /\
    forall is u iu p t, (u < m)%nat ->
      link_coefficient (sc_dir sc) o b 0 is u iu p t = link_coefficient (sc_dir sc) o' b' 0 is u iu p t /\
      link_delay (sc_dir sc) o b 0 u p = link_delay (sc_dir sc) o' b' 0 u p.
Proof.
  intros srt srtd ua ba sc al ops ops' a a' dr dr' z z' fs d d' m b b' Hc Hs Hs' c c' SE TD LD CD.
  assert (Ha := constructed_accepted sc Hc).
  destruct (call_defined srt srtd ua ba _ _ _ _ _ _ fs d Hc Hs) as [o O]. destruct (call_defined srt srtd ua ba _ _ _ _ _ _ fs d' Hc Hs') as [o' O'].
  fold c in O. fold c' in O'. exists o, o'. split; [exact O|]. split; [exact O'|].
  destruct (settled_content _ _ _ _ _ _ Hc Hs) as (ut & bs & ind & p & g & los & cl & cn & ls & pl & Lx & Ls &
    A1 & A2 & A3 & A4 & A5 & A6 & A7 & A8 & A9 & A10 & A11 & A12 & A13 & A14 & A15 & A16 & A17 & A18 & A19 & A20 & A21 & A22 & A23 & A24).
  destruct (settled_content _ _ _ _ _ _ Hc Hs') as (ut' & bs' & ind' & p' & g' & los' & cl' & cn' & ls' & pl' & Lx' & Ls' &
    B1 & B2 & B3 & B4 & B5 & B6 & B7 & B8 & B9 & B10 & B11 & B12 & B13 & B14 & B15 & B16 & B17 & B18 & B19 & B20 & B21 & B22 & B23 & B24).
  fold c in A1, A2, A3, A7, A10, A11, A14, A16, A18, A19, A20, A23, A24. fold c' in B1, B2, B3, B7, B10, B11, B14, B16, B18, B19, B20, B23, B24.
  assert (p' = p) by (assert (Q := documented_value_fun _ _ _ _ _ _ _ _ A6 B6); congruence). subst p'.
  assert (cl' = cl) by congruence. subst cl'. assert (cn' = cn) by congruence. subst cn'.
  destruct (se_ut_loc _ _ _ _ _ SE) as (v & w & Q1 & Q2 & U1 & U2 & U3 & U4 & U5).
  assert (v = ut) by congruence. subst v. assert (w = ut') by congruence. subst w. clear Q1 Q2.
  destruct (se_ut_in _ _ _ _ _ SE) as (v & w & Q1 & Q2 & _ & _ & _ & _ & I5).
  assert (v = ind) by congruence. subst v. assert (w = ind') by congruence. subst w. clear Q1 Q2.
  destruct (se_bs_loc _ _ _ _ _ SE) as (v & w & Q1 & Q2 & _ & _ & _ & _ & S5).
  assert (v = bs) by congruence. subst v. assert (w = bs') by congruence. subst w. clear Q1 Q2. specialize (S5 0%nat ltac:(lia)).
  assert (AL := se_altitude _ _ _ _ _ SE _ _ A2 B2).
  assert (LOS : forall u, (u < m)%nat -> los b 0%nat u = los' b' 0%nat u).
  { intros u Hu. rewrite A11, B11. unfold sample_los. rewrite (se_los _ _ _ _ _ SE), (td_los _ _ _ _ _ TD u Hu), (I5 u Hu). reflexivity. }
  assert (COL : ls_col ls = ls_col ls') by (rewrite A15, B15; reflexivity).
  (* large scale parameters *)
  assert (LSP : forall x x' l l', same_lsp_draws m b b' x x' -> sample_lsp (c_st c) (t_num ut) Lx Ls x = Ok l -> sample_lsp (c_st c') (t_num ut') Lx' Ls' x' = Ok l' ->
    forall u, (u < m)%nat -> l b 0%nat u = l' b' 0%nat u).
  { intros x x' l l' SD E E' u Hu. unfold sample_lsp in E, E'. rewrite A14 in E. rewrite B14 in E'. injection E as <-. injection E' as <-.
    assert (M1 : ls_mean ls b 0%nat u = ls_mean ls' b' 0%nat u) by (rewrite A15, B15; cbn [ls_mean]; rewrite (LOS u Hu); reflexivity).
    assert (M2 : ls_std ls b 0%nat u = ls_std ls' b' 0%nat u) by (rewrite A15, B15; cbn [ls_std]; rewrite (LOS u Hu); reflexivity).
    rewrite M1, M2. apply make_lsp_ext. intros i Hi. unfold spatially_filtered.
    pose proof (A22 b i U1 Hi) as Y. pose proof (B22 b' i U2 Hi) as Y'.
    rewrite (sumR_prefix (t_num ut) _ m U3) by (intros k Hk; rewrite (cholesky_lower _ _ _ Y) by lia; ring).
    rewrite (sumR_prefix (t_num ut') _ m U4) by (intros k Hk; rewrite (cholesky_lower _ _ _ Y') by lia; ring).
    apply sumR_ext. intros k Hk. f_equal.
    - unfold cross_filtered. pose proof (A21 b k U1 ltac:(lia)) as W. pose proof (B21 b' k U2 ltac:(lia)) as W'.
      rewrite COL, (LOS k Hk) in W. assert (EL : Lx b 0%nat k = Lx' b' 0%nat k) by congruence. rewrite EL.
      apply sumR_ext. intros j Hj. rewrite (SD k j Hk). reflexivity.
    - refine (cholesky_prefix m _ _ _ _ _ _ U3 U4 _ Y Y' u k Hu). intros i' j' Hi' Hj'. unfold spatial_corr, pair_filter.
      rewrite A9, B9, COL, (LOS i' Hi'), (LOS j' Hj'), (I5 i' Hi'), (I5 j' Hj'), (U5 i' Hi'), (U5 j' Hj'). reflexivity. }
  intros is u iu q t Hu.
  destruct (C31_axes_l _ _ _ _ _ _ _ _ _ _ O) as (lsps & mask & rr & vel & uo & bo & bs1 & g1 & los1 & ls1 & pl1 & D1 & D2 & D3 & D4 & D5 & D6 & D7 & D8 & D9 & D10 & D11 & D12 & D13).
  destruct (C31_axes_l _ _ _ _ _ _ _ _ _ _ O') as (lsps' & mask' & rr' & vel' & uo' & bo' & bs1' & g1' & los1' & ls1' & pl1' & F1 & F2 & F3 & F4 & F5 & F6 & F7 & F8 & F9 & F10 & F11 & F12 & F13).
  assert (bs1 = bs) by congruence. subst bs1. assert (g1 = g) by congruence. subst g1. assert (los1 = los) by congruence. subst los1. assert (ls1 = ls) by congruence. subst ls1.
  assert (bs1' = bs') by congruence. subst bs1'. assert (g1' = g') by congruence. subst g1'. assert (los1' = los') by congruence. subst los1'. assert (ls1' = ls') by congruence. subst ls1'.
  assert (LE : lsps b 0%nat u = lsps' b' 0%nat u).
  { unfold used_lsps in D1, F1. destruct al.
    - unfold lsp_sampler in D1, F1. rewrite A1, A18, A19 in D1. rewrite B1, B18, B19 in F1. exact (LSP _ _ _ _ LD D1 F1 u Hu).
    - destruct (A23 eq_refl) as (l & Q1 & Q2). destruct (B23 eq_refl) as (l' & Q1' & Q2').
      assert (l = lsps) by congruence. assert (l' = lsps') by congruence. subst l l'. exact (LSP _ _ _ _ LD Q1 Q1' u Hu). }
  assert (GE : forall x, x = g_aod \/ x = g_aoa \/ x = g_zod \/ x = g_zoa \/ x = g_d3d -> x g b 0%nat u = x g' b' 0%nat u).
  { destruct (A8 b 0%nat u) as (E1 & E2 & E3 & E4 & E5). destruct (B8 b' 0%nat u) as (E1' & E2' & E3' & E4' & E5').
    rewrite (U5 u Hu), S5 in E2, E3, E4, E5. rewrite AL in E1.
    intros x [->|[->|[->|[->| ->]]]]; congruence. }
  assert (RE : rr b 0%nat u = rr' b' 0%nat u).
  { unfold gen_rays in D3, F3. rewrite A14, A10, A7, A3, A2 in D3. rewrite B14, B10, B7, B3, B2 in F3. injection D3 as <-. injection F3 as <-.
    assert (mask = fun b s u => cluster_mask (n_clusters ls true) (n_clusters ls false) (t_at ind b u) (los b s u)) by congruence. subst mask.
    assert (mask' = fun b s u => cluster_mask (n_clusters ls' true) (n_clusters ls' false) (t_at ind' b u) (los' b s u)) by congruence. subst mask'.
    unfold num_clusters_max, n_clusters, satellite_height. rewrite COL, (LOS u Hu), (I5 u Hu), AL, LE.
    replace (ls_mean ls b 0%nat u 6%nat) with (ls_mean ls' b' 0%nat u 6%nat) by (rewrite A15, B15; cbn [ls_mean]; rewrite (LOS u Hu); reflexivity).
    replace (ls_zod_offset ls b 0%nat u) with (ls_zod_offset ls' b' 0%nat u)
      by (rewrite A15, B15; cbn [ls_zod_offset]; rewrite (LOS u Hu), (U5 u Hu), S5; reflexivity).
    unfold link_rays. cbv zeta.
    destruct CD as [X1 X2 X3 X4 X5 X6 X7 X8 X9].
    assert (AN : forall e e', same_angle_draws m b b' e e' -> ad_sign e b 0%nat = ad_sign e' b' 0%nat /\ ad_comp e b 0%nat u = ad_comp e' b' 0%nat u /\ ad_mix e b 0%nat = ad_mix e' b' 0%nat).
    { intros e e' [H1 H2 H3]. split; [extensionality c9; apply H1|]. split; [extensionality c9; apply H2, Hu|]. extensionality c9; extensionality r9; apply H3. }
    destruct (AN _ _ X3) as (N1 & N2 & N3). destruct (AN _ _ X4) as (N4 & N5 & N6). destruct (AN _ _ X5) as (N7 & N8 & N9). destruct (AN _ _ X6) as (N10 & N11 & N12).
    assert (Y1 : rd_x (cd_rays d) b 0%nat u = rd_x (cd_rays d') b' 0%nat u) by (extensionality c9; apply X1, Hu).
    assert (Y2 : rd_shadow (cd_rays d) b 0%nat u = rd_shadow (cd_rays d') b' 0%nat u) by (extensionality c9; apply X2, Hu).
    assert (Y3 : rd_xpr (cd_rays d) b 0%nat u = rd_xpr (cd_rays d') b' 0%nat u) by (extensionality c9; extensionality r9; apply X7, Hu).
    rewrite Y1, Y2, Y3, N1, N2, N3, N4, N5, N6, N7, N8, N9, N10, N11, N12.
    rewrite (GE g_aod), (GE g_aoa), (GE g_zod), (GE g_zoa) by tauto. reflexivity. }
  specialize (D13 b 0%nat u). specialize (F13 b' 0%nat u). cbv zeta in D13, F13. rewrite RE, LE in D13.
  assert (TE : down_link sc (c_st c) vel uo bo bs g los (cd_dir d) b 0 u = down_link sc (c_st c') vel' uo' bo' bs' g' los' (cd_dir d') b' 0 u).
  { unfold down_link. rewrite (se_ut_vel _ _ _ _ _ SE _ _ u D4 F4 Hu), (se_ut_ori _ _ _ _ _ SE _ _ u D5 F5 Hu), (se_bs_ori _ _ _ _ _ SE _ _ D6 F6).
    rewrite (GE g_aod), (GE g_aoa), (GE g_zod), (GE g_zoa), (GE g_d3d) by tauto. rewrite (LOS u Hu), AL, A24, B24, (cs_dir _ _ _ _ _ _ CD). reflexivity. }
  rewrite TE, COL, (LOS u Hu) in D13.
  assert (PL : (if sc_pathloss sc then Rpower 10 (- pl1 b 0%nat u / 20) else 1) = (if sc_pathloss sc then Rpower 10 (- pl1' b' 0%nat u / 20) else 1)).
  { destruct (sc_pathloss sc); [|reflexivity]. specialize (D12 eq_refl). specialize (F12 eq_refl).
    unfold sample_pathloss in D12, F12. rewrite A16 in D12. rewrite B16 in F12. injection D12 as <-. injection F12 as <-.
    rewrite AL in A17. unfold compute_pathlosses in A17, B17.
    destruct (clutter_loss sc) as [clv|]; cbn [bind] in A17, B17; [|discriminate].
    destruct (num_of clv) as [cv|]; cbn [bind] in A17, B17; [|discriminate].
    destruct (sigma_sf_los sc) as [slv|]; cbn [bind] in A17, B17; [|discriminate].
    destruct (num_of slv) as [sv|]; cbn [bind] in A17, B17; [|discriminate].
    destruct (sigma_sf_nlos sc) as [snv|]; cbn [bind] in A17, B17; [|discriminate].
    destruct (num_of snv) as [nv|]; cbn [bind] in A17, B17; [|discriminate].
    injection A17 as <-. injection B17 as <-. cbn [pl_b pl_g pl_s pl_e].
    rewrite (LOS u Hu), (td_z_los _ _ _ _ _ TD u Hu), (td_z_nlos _ _ _ _ _ TD u Hu). reflexivity. }
  rewrite PL in D13.
  assert (PH := cs_phase _ _ _ _ _ _ CD u).
  destruct (rr' b' 0%nat u) as [y|].
  - destruct (D13 is iu q t) as [Z1 Z2]. destruct (F13 is iu q t) as [W1 W2].
    destruct (String.eqb (sc_dir sc) "uplink").
    + assert (PE : cd_phase d b u 0%nat = cd_phase d' b' u 0%nat) by (extensionality c9; extensionality r9; extensionality k9; apply PH, Hu).
      rewrite PE in Z1, Z2. split; congruence.
    + assert (PE : cd_phase d b 0%nat u = cd_phase d' b' 0%nat u) by (extensionality c9; extensionality r9; extensionality k9; apply PH, Hu).
      rewrite PE in Z1, Z2. split; congruence.
  - destruct (D13 is iu q t). destruct (F13 is iu q t). split; congruence.
Qed.

Lemma settled_now sc al a dr z : changes_topology a -> snd (chan_set_topology sc al (chan_init sc) a dr z) = Ok tt ->
  settled sc al [SetTopology a dr z] a dr z /\ chan_run sc al (chan_init sc) [SetTopology a dr z] = fst (chan_set_topology sc al (chan_init sc) a dr z).
Proof.
  intros Ch H. split; [|reflexivity]. exists [], []. split; [reflexivity|]. split; [exact Ch|]. split; [exact H|]. intros ? ? ? [].
Qed.

Lemma C90_alone_l : forall sc al ut bs uo bo vel ind l dr z m b, constructed sc ->
  let a := full_args ut bs uo bo vel ind l in
  let a1 := full_args (alone m b ut) (alone 1 b bs) (alone m b uo) (alone 1 b bo) (alone m b vel) (alone m b ind) l in
  let run a dr z := chan_set_topology sc al (chan_init sc) a dr z in
  snd (run a dr z) = Ok tt -> (b < t_batch ut)%nat -> (m <= t_num ut)%nat ->
  vz (t_at bs b 0%nat) = vz (t_at bs 0%nat 0%nat) ->
  let dr1 := topo_draws_of b dr in let z1 := fun _ : nat => z b in
  snd (run a1 dr1 z1) = Ok tt /\
  forall srt srtd ua ba fs d, exists o o1,
    chan_call srt srtd sc ua ba al (fst (run a dr z)) fs d = Ok o /\
    chan_call srt srtd sc ua ba al (fst (run a1 dr1 z1)) fs (call_draws_of b d) = Ok o1 /\
    forall is u iu p t, (u < m)%nat ->
      link_coefficient (sc_dir sc) o b 0 is u iu p t = link_coefficient (sc_dir sc) o1 0 0 is u iu p t /\
      link_delay (sc_dir sc) o b 0 u p = link_delay (sc_dir sc) o1 0 0 u p.
Proof.
  intros sc al ut bs uo bo vel ind l dr z m b Hc a a1 run H Hb Hm AL dr1 z1. subst run. cbv beta in *.
  assert (Ha := constructed_accepted sc Hc).
  assert (CH : changes_topology a) by (left; discriminate). assert (CH1 : changes_topology a1) by (left; discriminate).
  destruct (chan_set_topology sc al (chan_init sc) a dr z) as [c r] eqn:EC. cbn [snd] in H. subst r. cbn [fst].
  destruct (change_ok _ _ _ _ _ _ _ EC CH) as (ST & _).
  destruct (update_content _ _ _ _ _ Ha ST) as (ut' & bs' & ind' & p & X1 & X2 & X3 & X4 & X5 & X6 & X7 & X8 & X9 & _ & _ & _ & (los & L1 & L2 & _) & _).
  destruct (full_call sc (init_state sc) ut bs uo bo vel ind l no_weather None dr Ha) as (st9 & Q0 & Q1 & Q2 & Q3 & Q4 & Q5 & Q6).
  1-5: destruct (step_cases _ _ _ _ _ _ Ha ST) as [(_ & _ & [k Hk]) | (_ & _ & II & _)]; [discriminate|];
       destruct II as (I1 & I2 & I3 & I4 & I5 & I6 & I7 & I8); cbn in I1, I2, I6; congruence.
  assert (st9 = c_st c) by (change (channel_args a) with a in ST; change (c_st (chan_init sc)) with (init_state sc) in ST; unfold a, full_args in ST; congruence).
  subst st9. assert (ut' = ut) by congruence. subst ut'. assert (bs' = bs) by congruence. subst bs'. assert (ind' = ind) by congruence. subst ind'.
  destruct (full_call sc (init_state sc) (alone m b ut) (alone 1 b bs) (alone m b uo) (alone 1 b bo) (alone m b vel) (alone m b ind) l no_weather None dr1 Ha
     eq_refl eq_refl (le_n 1) eq_refl eq_refl) as (st1 & R0 & R1 & R2 & R3 & R4 & R5 & R6).
  change {| a_ut_loc := _; a_bs_loc := _; a_ut_ori := _; a_bs_ori := _; a_ut_vel := _; a_in := _; a_los := _; a_weather := _; a_doppler := _ |} with a1 in R0.
  assert (REQ : s_req_los (c_st c) = l /\ s_req_los st1 = l).
  { split.
    - destruct (step_cases _ _ _ _ _ _ Ha ST) as [(_ & _ & [k Hk]) | (_ & _ & II & _)]; [discriminate|].
      destruct II as (I1 & I2 & I3 & I4 & I5 & I6 & I7 & I8). rewrite I7. cbn. destruct l; reflexivity.
    - destruct (step_cases _ _ _ _ _ _ Ha R0) as [(_ & _ & [k Hk]) | (_ & _ & II & _)]; [discriminate|].
      destruct II as (I1 & I2 & I3 & I4 & I5 & I6 & I7 & I8). rewrite I7. cbn. destruct l; reflexivity. }
  assert (OK1 : snd (chan_set_topology sc al (chan_init sc) a1 dr1 z1) = Ok tt).
  { destruct (C68_l sc al (chan_init sc) a1 dr1 z1 st1 Hc R0) as (ut2 & ind2 & los2 & Y1 & Y2 & Y3 & Iff1). apply Iff1.
    assert (ut2 = alone m b ut) by congruence. assert (ind2 = alone m b ind) by congruence. subst ut2 ind2.
    destruct (C68_l sc al (chan_init sc) a dr z (c_st c) Hc ST) as (ut3 & ind3 & los3 & Y4 & Y5 & Y6 & Iff).
    assert (ut3 = ut) by congruence. assert (ind3 = ind) by congruence. assert (los3 = los) by congruence. subst ut3 ind3 los3.
    destruct (update_content _ _ _ _ _ Ha R0) as (ut4 & bs4 & ind4 & p4 & V1 & V2 & V3 & _ & _ & _ & _ & _ & V9 & _ & _ & _ & (los4 & W1 & W2 & _) & _).
    assert (ind4 = alone m b ind) by congruence. assert (LL : los2 = los4) by congruence. subst ind4.
    assert (p4 = p) by (assert (Q := documented_value_fun _ _ _ _ _ _ _ _ V9 X9); congruence). subst p4.
    assert (LE : forall u, los2 0%nat 0%nat u = los b 0%nat u).
    { intros u. rewrite LL, W2, L2, (proj1 REQ), (proj2 REQ). reflexivity. }
    rewrite EC in Iff. destruct Iff as [Iff _]. specialize (Iff eq_refl).
    intros b0 u u' Hb0 Hu Hu' N SS. cbn [alone t_batch t_num t_at] in *. assert (b0 = 0%nat) by lia. subst b0. rewrite !LE in SS.
    apply (Iff b u u'); try lia; assumption. }
  split; [exact OK1|]. intros srt srtd ua ba fs d.
  destruct (settled_now sc al a dr z CH) as [SE ER]; [rewrite EC; reflexivity|].
  destruct (settled_now sc al a1 dr1 z1 CH1 OK1) as [SE1 ER1].
  assert (E1 : c_st (fst (chan_set_topology sc al (chan_init sc) a1 dr1 z1)) = st1).
  { destruct (chan_set_topology sc al (chan_init sc) a1 dr1 z1) as [c1 r1] eqn:EC1. cbn [snd] in OK1. subst r1.
    destruct (change_ok _ _ _ _ _ _ _ EC1 CH1) as (ST1 & _). cbn [fst]. change (channel_args a1) with a1 in ST1.
    change (c_st (chan_init sc)) with (init_state sc) in ST1. congruence. }
  pose proof (C90_l srt srtd ua ba sc al _ _ a a1 dr dr1 z z1 fs d (call_draws_of b d) m b 0%nat Hc SE SE1) as MAIN.
  cbv zeta in MAIN. rewrite ER, ER1, EC in MAIN. cbn [fst] in MAIN. rewrite E1 in MAIN. apply MAIN.
  - constructor.
    + exists ut, (alone m b ut). cbn. repeat split; auto; lia.
    + exists ind, (alone m b ind). cbn. repeat split; auto; lia.
    + exists bs, (alone 1 b bs). cbn. repeat split; auto; lia.
    + intros v w Hv Hw. assert (v = bs) by congruence. assert (w = alone 1 b bs) by congruence. subst. cbn. congruence.
    + intros v w u Hv Hw _. assert (v = uo) by congruence. assert (w = alone m b uo) by congruence. subst. reflexivity.
    + intros v w u Hv Hw _. assert (v = vel) by congruence. assert (w = alone m b vel) by congruence. subst. reflexivity.
    + intros v w Hv Hw. assert (v = bo) by congruence. assert (w = alone 1 b bo) by congruence. subst. reflexivity.
    + destruct REQ; congruence.
  - constructor; reflexivity.
  - destruct al; intros u j _; reflexivity.
  - constructor; try reflexivity. all: constructor; reflexivity.
Qed.

(* a batch of two examples with two UTs each *)
Lemma batch_example_l sc al dr z : constructed sc ->
  let ut := T 2 2 (fun b u => V3 (600000 + 1000 * INR b + 100 * INR u) 0 1.5) in
  let bs := T 2 1 (fun b _ => V3 (50 * INR b) 0 600000) in
  let o n := T 2 n (fun _ _ => V3 0 0 0) in
  snd (chan_set_topology sc al (chan_init sc) (full_args ut bs (o 2%nat) (o 1%nat) (o 2%nat) (T 2 2 (fun b u => Nat.eqb b u)) None) dr z) = Ok tt.
Proof.
  intros Hc ut bs o. assert (Ha := constructed_accepted sc Hc).
  destruct (full_call sc (init_state sc) ut bs (o 2%nat) (o 1%nat) (o 2%nat) (T 2 2 (fun b u => Nat.eqb b u)) None no_weather None dr Ha
     eq_refl eq_refl ltac:(cbn; lia) eq_refl eq_refl) as (st1 & R0 & R1 & R2 & R3 & R4 & R5 & R6).
  set (a := full_args ut bs (o 2%nat) (o 1%nat) (o 2%nat) (T 2 2 (fun b u => Nat.eqb b u)) None).
  destruct (C68_l sc al (chan_init sc) a dr z st1 Hc R0) as (ut2 & ind2 & los2 & Y1 & _ & _ & Iff). apply Iff.
  assert (ut2 = ut) by congruence. subst ut2. cbn [ut t_batch t_num t_at vx vy].
  intros b u u' _ _ _ N _. left. intros E. apply N. apply INR_eq. lra.
Qed.
