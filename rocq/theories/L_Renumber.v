(* The numbering of the UTs. *)
From Coq Require Import Reals String List Bool Arith Lia Lra FunctionalExtensionality.
From Verif Require Import M_Base L_Base M_Params S_Config L_Params L_Config M_Geometry M_Pathloss M_Scenario
  M_Lsp S_Linear L_Linear S_Lsp S_Topology L_Scenario L_Fresh L_Topology L_Lsp M_Rays M_Antenna M_Cplx M_Coeff S_Coeff
  M_Channel S_Channel L_Chol L_Channel L_Link S_Isolation L_Isolation S_Renumber.
Import ListNotations.
Open Scope string_scope.
Open Scope list_scope.
Open Scope R_scope.

(* ---- a Cholesky factor can be solved for any right-hand side ---- *)
Fixpoint fsub (L : matrix) (t : nat -> R) (n : nat) : nat -> R :=
  match n with
  | O => fun _ => 0
  | S m => let y := fsub L t m in
           fun k => if Nat.eqb k m then (t m - sumR m (fun j => L m j * y j)) / L m m else y k
  end.

Lemma cholesky_diag n : forall A L, cholesky n A = Some L -> forall i, (i < n)%nat -> 0 < L i i.
Proof.
  induction n as [|n IH]; cbn [cholesky]; intros A L H i Hi; [lia|].
  destruct (Rltb 0 (A 0%nat 0%nat)) eqn:R0; [|discriminate]. apply Rltb_true in R0.
  match type of H with match ?x with _ => _ end = _ => destruct x as [L'|] eqn:E; [|discriminate] end. injection H as <-.
  destruct i as [|i]; [apply sqrt_lt_R0; exact R0|]. apply (IH _ _ E). lia.
Qed.

Lemma fsub_solves L t n : (forall i j, (i < j)%nat -> L i j = 0) -> (forall i, (i < n)%nat -> 0 < L i i) ->
  forall u, (u < n)%nat -> sumR n (fun k => L u k * fsub L t n k) = t u.
Proof.
  intros Lo. induction n as [|n IH]; intros Di u Hu; [lia|].
  rewrite sumR_S. cbn [fsub]. rewrite Nat.eqb_refl.
  rewrite (sumR_ext n _ (fun k => L u k * fsub L t n k))
    by (intros k Hk; destruct (Nat.eqb_spec k n); [lia | reflexivity]).
  destruct (Nat.eq_dec u n) as [->|N].
  - assert (D := Di n ltac:(lia)). field. lra.
  - rewrite (IH ltac:(intros; apply Di; lia) u ltac:(lia)), (Lo u n) by lia. ring.
Qed.

(* ---- one link of one channel object and one link of another ---- *)
Definition same_angle (d d' : angle_draws) (b b' u u' : nat) : Prop :=
  ad_sign d b 0%nat = ad_sign d' b' 0%nat /\ ad_comp d b 0%nat u = ad_comp d' b' 0%nat u' /\ ad_mix d b 0%nat = ad_mix d' b' 0%nat.

Lemma link_agree srt srtd ua ba sc al ops ops' a a' dr dr' z z' fs d d' b b' u u' o o' :
  constructed sc -> settled sc al ops a dr z -> settled sc al ops' a' dr' z' ->
  let c := chan_run sc al (chan_init sc) ops in
  let c' := chan_run sc al (chan_init sc) ops' in
  chan_call srt srtd sc ua ba al c fs d = Ok o -> chan_call srt srtd sc ua ba al c' fs d' = Ok o' ->
  (forall v w, s_ut_loc (c_st c) = Some v -> s_ut_loc (c_st c') = Some w -> t_at v b u = t_at w b' u') ->
  (forall v w, s_in (c_st c) = Some v -> s_in (c_st c') = Some w -> t_at v b u = t_at w b' u') ->
  (forall v w, s_bs_loc (c_st c) = Some v -> s_bs_loc (c_st c') = Some w ->
     t_at v b 0%nat = t_at w b' 0%nat /\ vz (t_at v 0%nat 0%nat) = vz (t_at w 0%nat 0%nat)) ->
  (forall v w, s_ut_ori (c_st c) = Some v -> s_ut_ori (c_st c') = Some w -> t_at v b u = t_at w b' u') ->
  (forall v w, s_ut_vel (c_st c) = Some v -> s_ut_vel (c_st c') = Some w -> t_at v b u = t_at w b' u') ->
  (forall v w, s_bs_ori (c_st c) = Some v -> s_bs_ori (c_st c') = Some w -> t_at v b 0%nat = t_at w b' 0%nat) ->
  s_req_los (c_st c) = s_req_los (c_st c') ->
  dr_los dr b 0%nat u = dr_los dr' b' 0%nat u' -> dr_z_los dr b 0%nat u = dr_z_los dr' b' 0%nat u' ->
  dr_z_nlos dr b 0%nat u = dr_z_nlos dr' b' 0%nat u' ->
  rd_x (cd_rays d) b 0%nat u = rd_x (cd_rays d') b' 0%nat u' ->
  rd_shadow (cd_rays d) b 0%nat u = rd_shadow (cd_rays d') b' 0%nat u' ->
  rd_xpr (cd_rays d) b 0%nat u = rd_xpr (cd_rays d') b' 0%nat u' ->
  same_angle (rd_aoa (cd_rays d)) (rd_aoa (cd_rays d')) b b' u u' ->
  same_angle (rd_aod (cd_rays d)) (rd_aod (cd_rays d')) b b' u u' ->
  same_angle (rd_zoa (cd_rays d)) (rd_zoa (cd_rays d')) b b' u u' ->
  same_angle (rd_zod (cd_rays d)) (rd_zod (cd_rays d')) b b' u u' ->
  cd_dir d b = cd_dir d' b' ->
  (if String.eqb (sc_dir sc) "uplink" then cd_phase d b u 0%nat = cd_phase d' b' u' 0%nat
   else cd_phase d b 0%nat u = cd_phase d' b' 0%nat u') ->
  (forall l l', used_lsps al c d l -> used_lsps al c' d' l' -> l b 0%nat u = l' b' 0%nat u') ->
  forall is iu q t,
    link_coefficient (sc_dir sc) o b 0 is u iu q t = link_coefficient (sc_dir sc) o' b' 0 is u' iu q t /\
    link_delay (sc_dir sc) o b 0 u q = link_delay (sc_dir sc) o' b' 0 u' q.
Proof.
  intros Hc Hs Hs' c c' O O' HU HI HB HUO HV HBO HR T1 T2 T3 Y1 Y2 Y3 (N1 & N2 & N3) (N4 & N5 & N6) (N7 & N8 & N9) (N10 & N11 & N12) DI PH LS
    is iu q t.
  assert (Ha := constructed_accepted sc Hc).
  destruct (settled_content _ _ _ _ _ _ Hc Hs) as (ut & bs & ind & p & g & los & cl & cn & ls & pl & Lx & Ls &
    A1 & A2 & A3 & A4 & A5 & A6 & A7 & A8 & A9 & A10 & A11 & A12 & A13 & A14 & A15 & A16 & A17 & A18 & A19 & A20 & A21 & A22 & A23 & A24).
  destruct (settled_content _ _ _ _ _ _ Hc Hs') as (ut' & bs' & ind' & p' & g' & los' & cl' & cn' & ls' & pl' & Lx' & Ls' &
    B1 & B2 & B3 & B4 & B5 & B6 & B7 & B8 & B9 & B10 & B11 & B12 & B13 & B14 & B15 & B16 & B17 & B18 & B19 & B20 & B21 & B22 & B23 & B24).
  fold c in A1, A2, A3, A7, A10, A11, A14, A16, A18, A19, A20, A23, A24. fold c' in B1, B2, B3, B7, B10, B11, B14, B16, B18, B19, B20, B23, B24.
  assert (p' = p) by (assert (Q := documented_value_fun _ _ _ _ _ _ _ _ A6 B6); congruence). subst p'.
  assert (cl' = cl) by congruence. subst cl'. assert (cn' = cn) by congruence. subst cn'.
  assert (U5 := HU _ _ A1 B1). assert (I5 := HI _ _ A3 B3). destruct (HB _ _ A2 B2) as [S5 AL].
  assert (LOS : los b 0%nat u = los' b' 0%nat u').
  { rewrite A11, B11. unfold sample_los. rewrite HR, T1, I5. reflexivity. }
  assert (COL : ls_col ls = ls_col ls') by (rewrite A15, B15; reflexivity).
  destruct (C31_axes_l _ _ _ _ _ _ _ _ _ _ O) as (lsps & mask & rr & vel & uo & bo & bs1 & g1 & los1 & ls1 & pl1 & D1 & D2 & D3 & D4 & D5 & D6 & D7 & D8 & D9 & D10 & D11 & D12 & D13).
  destruct (C31_axes_l _ _ _ _ _ _ _ _ _ _ O') as (lsps' & mask' & rr' & vel' & uo' & bo' & bs1' & g1' & los1' & ls1' & pl1' & F1 & F2 & F3 & F4 & F5 & F6 & F7 & F8 & F9 & F10 & F11 & F12 & F13).
  assert (bs1 = bs) by congruence. subst bs1. assert (g1 = g) by congruence. subst g1. assert (los1 = los) by congruence. subst los1. assert (ls1 = ls) by congruence. subst ls1.
  assert (bs1' = bs') by congruence. subst bs1'. assert (g1' = g') by congruence. subst g1'. assert (los1' = los') by congruence. subst los1'. assert (ls1' = ls') by congruence. subst ls1'.
  assert (LE := LS _ _ D1 F1).
  assert (GE : forall x, x = g_aod \/ x = g_aoa \/ x = g_zod \/ x = g_zoa \/ x = g_d3d -> x g b 0%nat u = x g' b' 0%nat u').
  { destruct (A8 b 0%nat u) as (E1 & E2 & E3 & E4 & E5). destruct (B8 b' 0%nat u') as (E1' & E2' & E3' & E4' & E5').
    rewrite U5, S5 in E2, E3, E4, E5. rewrite AL in E1.
    intros x [->|[->|[->|[->| ->]]]]; congruence. }
  assert (RE : rr b 0%nat u = rr' b' 0%nat u').
  { unfold gen_rays in D3, F3. rewrite A14, A10, A7, A3, A2 in D3. rewrite B14, B10, B7, B3, B2 in F3. injection D3 as <-. injection F3 as <-.
    assert (mask = fun b s u => cluster_mask (n_clusters ls true) (n_clusters ls false) (t_at ind b u) (los b s u)) by congruence. subst mask.
    assert (mask' = fun b s u => cluster_mask (n_clusters ls' true) (n_clusters ls' false) (t_at ind' b u) (los' b s u)) by congruence. subst mask'.
    unfold num_clusters_max, n_clusters, satellite_height. rewrite COL, LOS, I5, AL, LE.
    replace (ls_mean ls b 0%nat u 6%nat) with (ls_mean ls' b' 0%nat u' 6%nat) by (rewrite A15, B15; cbn [ls_mean]; rewrite LOS; reflexivity).
    replace (ls_zod_offset ls b 0%nat u) with (ls_zod_offset ls' b' 0%nat u')
      by (rewrite A15, B15; cbn [ls_zod_offset]; rewrite LOS, U5, S5; reflexivity).
    unfold link_rays. cbv zeta.
    rewrite Y1, Y2, Y3, N1, N2, N3, N4, N5, N6, N7, N8, N9, N10, N11, N12.
    rewrite (GE g_aod), (GE g_aoa), (GE g_zod), (GE g_zoa) by tauto. reflexivity. }
  specialize (D13 b 0%nat u). specialize (F13 b' 0%nat u'). cbv zeta in D13, F13. rewrite RE, LE in D13.
  assert (TE : down_link sc (c_st c) vel uo bo bs g los (cd_dir d) b 0 u = down_link sc (c_st c') vel' uo' bo' bs' g' los' (cd_dir d') b' 0 u').
  { unfold down_link. rewrite (HV _ _ D4 F4), (HUO _ _ D5 F5), (HBO _ _ D6 F6).
    rewrite (GE g_aod), (GE g_aoa), (GE g_zod), (GE g_zoa), (GE g_d3d) by tauto. rewrite LOS, AL, A24, B24, DI. reflexivity. }
  rewrite TE, COL, LOS in D13.
  assert (PL : (if sc_pathloss sc then Rpower 10 (- pl1 b 0%nat u / 20) else 1) = (if sc_pathloss sc then Rpower 10 (- pl1' b' 0%nat u' / 20) else 1)).
  { destruct (sc_pathloss sc); [|reflexivity]. specialize (D12 eq_refl). specialize (F12 eq_refl).
    unfold sample_pathloss in D12, F12. rewrite A16 in D12. rewrite B16 in F12. injection D12 as <-. injection F12 as <-.
    rewrite AL in A17. unfold compute_pathlosses in A17, B17.
    destruct (clutter_loss sc) as [clv|]; cbn [bind] in A17, B17; [|discriminate].
    destruct (num_of clv) as [cv|]; cbn [bind] in A17, B17; [|discriminate].
    destruct (sigma_sf_los sc) as [slv|]; cbn [bind] in A17, B17; [|discriminate].
    destruct (num_of slv) as [sv|]; cbn [bind] in A17, B17; [|discriminate].
    destruct (sigma_sf_nlos sc) as [snv|]; cbn [bind] in A17, B17; [|discriminate].
    destruct (num_of snv) as [nv|]; cbn [bind] in A17, B17; [|discriminate].
    injection A17 as <-. injection B17 as <-. cbn [pl_b pl_g pl_s pl_e].
    rewrite LOS, T2, T3. reflexivity. }
  rewrite PL in D13.
  destruct (rr' b' 0%nat u') as [y|].
  - destruct (D13 is iu q t) as [Z1 Z2]. destruct (F13 is iu q t) as [W1 W2].
    destruct (String.eqb (sc_dir sc) "uplink"); rewrite PH in Z1, Z2; split; congruence.
  - destruct (D13 is iu q t). destruct (F13 is iu q t). split; congruence.
Qed.

(* ---- the factors stored do not depend on the draws of the parameters ---- *)
Lemma factors_without_z sc al c a dr z z' :
  let r := chan_set_topology sc al c a dr z in let r' := chan_set_topology sc al c a dr z' in
  c_cross (fst r) = c_cross (fst r') /\ c_spatial (fst r) = c_spatial (fst r') /\ c_st (fst r) = c_st (fst r').
Proof.
  cbv zeta. unfold chan_set_topology. destruct (set_topology _ _ _ _) as [st [[|]|e]]; try (repeat split; reflexivity).
  destruct (sizes st) as [[nb ns] nu].
  destruct (m <- cross_matrix st;; cholesky_all nb ns nu 7 m); [|repeat split; reflexivity].
  destruct (m <- spatial_matrix st;; cholesky_all nb ns 7 nu m); [|repeat split; reflexivity].
  destruct (compute_clusters_mask st); [|repeat split; reflexivity]. destruct al; [repeat split; reflexivity|].
  destruct (lsp_sampler _ z), (lsp_sampler _ z'); repeat split; reflexivity.
Qed.

(* draws of one topology that give its UTs the variates v *)
Definition solved (m : nat) (Lx Ls : nat -> nat -> nat -> matrix) (v : nat -> nat -> nat -> nat -> R) : nat -> nat -> nat -> nat -> R :=
  fun b s k => fsub (Lx b s k) (fun i => fsub (Ls b s i) (fun u => v b s u i) m k) 7.

Lemma solved_ok m Lx Ls v b s u i : (u < m)%nat -> (i < 7)%nat ->
  (forall k, (k < m)%nat -> (forall i j, (i < j)%nat -> Lx b s k i j = 0) /\ forall i, (i < 7)%nat -> 0 < Lx b s k i i) ->
  (forall i, (i < 7)%nat -> (forall u w, (u < w)%nat -> Ls b s i u w = 0) /\ forall u, (u < m)%nat -> 0 < Ls b s i u u) ->
  spatially_filtered m (Ls b s) (cross_filtered (Lx b s) (solved m Lx Ls v b s)) u i = v b s u i.
Proof.
  intros Hu Hi X Y. unfold spatially_filtered. destruct (Y i Hi) as [Y1 Y2].
  rewrite <- (fsub_solves (Ls b s i) (fun u => v b s u i) m Y1 Y2 u Hu).
  apply sumR_ext. intros k Hk. destruct (X k Hk) as [X1 X2]. rewrite Rmult_comm. f_equal.
  unfold cross_filtered, solved. rewrite (fsub_solves _ _ 7 X1 X2 i Hi). reflexivity.
Qed.

Lemma full_set sc al ut bs uo bo vel ind l dr z : constructed sc ->
  let a := full_args ut bs uo bo vel ind l in
  let r := chan_set_topology sc al (chan_init sc) a dr z in
  t_batch ut = t_batch bs -> t_num bs = 1%nat -> (1 <= t_batch bs)%nat ->
  t_batch ind = t_batch ut -> t_num ind = t_num ut ->
  c_st (fst r) = fst (set_topology sc (init_state sc) a dr) /\
  snd (set_topology sc (init_state sc) a dr) = Ok true /\
  s_ut_loc (c_st (fst r)) = Some ut /\ s_bs_loc (c_st (fst r)) = Some bs /\ s_ut_ori (c_st (fst r)) = Some uo /\
  s_bs_ori (c_st (fst r)) = Some bo /\ s_ut_vel (c_st (fst r)) = Some vel /\ s_in (c_st (fst r)) = Some ind /\
  s_req_los (c_st (fst r)) = l.
Proof.
  intros Hc a r H1 H2 H3 H4 H5. assert (Ha := constructed_accepted sc Hc).
  destruct (full_call sc (init_state sc) ut bs uo bo vel ind l no_weather None dr Ha H1 H2 H3 H4 H5) as (st & E & E1 & E2 & E3 & E4 & E5 & E6).
  change (set_topology sc (init_state sc) a dr = (st, Ok true)) in E.
  assert (Q : c_st (fst r) = st).
  { unfold r, chan_set_topology. change (channel_args a) with a. change (c_st (chan_init sc)) with (init_state sc). rewrite E.
    destruct (sizes st) as [[nb ns] nu].
    destruct (m <- cross_matrix st;; cholesky_all nb ns nu 7 m); [|reflexivity].
    destruct (m <- spatial_matrix st;; cholesky_all nb ns 7 nu m); [|reflexivity].
    destruct (compute_clusters_mask st); [|reflexivity]. destruct al; [reflexivity|]. destruct (lsp_sampler _ z); reflexivity. }
  rewrite Q, E. cbn [fst snd]. repeat split; try assumption.
  destruct (step_cases _ _ _ _ _ _ Ha E) as [(_ & _ & [k Hk]) | (_ & _ & II & _)]; [discriminate|].
  destruct II as (I1 & I2 & I3 & I4 & I5 & I6 & I7 & I8). rewrite I7. cbn. destruct l; reflexivity.
Qed.

Lemma full_sizes sc al ut bs uo bo vel ind l dr z : constructed sc ->
  snd (chan_set_topology sc al (chan_init sc) (full_args ut bs uo bo vel ind l) dr z) = Ok tt ->
  t_batch ut = t_batch bs /\ t_num bs = 1%nat /\ (1 <= t_batch bs)%nat /\ t_batch ind = t_batch ut /\ t_num ind = t_num ut.
Proof.
  intros Hc H. assert (Ha := constructed_accepted sc Hc).
  destruct (chan_set_topology sc al (chan_init sc) (full_args ut bs uo bo vel ind l) dr z) as [c r] eqn:EC. cbn [snd] in H. subst r.
  assert (CH : changes_topology (full_args ut bs uo bo vel ind l)) by (left; discriminate).
  destruct (change_ok _ _ _ _ _ _ _ EC CH) as (ST & _).
  destruct (update_content _ _ _ _ _ Ha ST) as (ut' & bs' & ind' & p & X1 & X2 & X3 & X4 & X5 & X6 & X7 & X8 & X9 & _ & _ & _ & (los & L1 & L2 & _) & _).
  destruct (step_cases _ _ _ _ _ _ Ha ST) as [(_ & _ & [k Hk]) | (_ & _ & II & _)]; [discriminate|].
  destruct II as (I1 & I2 & I3 & I4 & I5 & I6 & I7 & I8). cbn in I1, I2, I6.
  assert (ut' = ut) by congruence. assert (bs' = bs) by congruence. assert (ind' = ind) by congruence. subst. tauto.
Qed.

Lemma C104_l : forall sc al ut bs uo bo vel ind l dr z m p, constructed sc ->
  let a := full_args ut bs uo bo vel ind l in
  let a1 := full_args (pick m p ut) bs (pick m p uo) bo (pick m p vel) (pick m p ind) l in
  let run a dr z := chan_set_topology sc al (chan_init sc) a dr z in
  snd (run a dr z) = Ok tt -> picks (t_num ut) m p ->
  let dr1 := pick_topo_draws p dr in
  exists z1, snd (run a1 dr1 z1) = Ok tt /\
  forall srt srtd ua ba fs d, exists zd o o1,
    chan_call srt srtd sc ua ba al (fst (run a dr z)) fs d = Ok o /\
    chan_call srt srtd sc ua ba al (fst (run a1 dr1 z1)) fs (pick_call_draws (sc_dir sc) p zd d) = Ok o1 /\
    forall b is u iu q t, (b < t_batch ut)%nat -> (u < m)%nat ->
      link_coefficient (sc_dir sc) o b 0 is (p u) iu q t = link_coefficient (sc_dir sc) o1 b 0 is u iu q t /\
      link_delay (sc_dir sc) o b 0 (p u) q = link_delay (sc_dir sc) o1 b 0 u q.
Proof.
  intros sc al ut bs uo bo vel ind l dr z m p Hc a a1 run H [P1 P2] dr1. subst run. cbv beta in *.
  assert (Ha := constructed_accepted sc Hc).
  assert (CH : changes_topology a) by (left; discriminate). assert (CH1 : changes_topology a1) by (left; discriminate).
  destruct (full_sizes _ _ _ _ _ _ _ _ _ _ _ Hc H) as (Z1 & Z2 & Z3 & Z4 & Z5).
  destruct (full_set sc al ut bs uo bo vel ind l dr z Hc Z1 Z2 Z3 Z4 Z5) as (G0 & G0' & G1 & G2 & G3 & G4 & G5 & G6 & G7). fold a in G0, G0', G1, G2, G3, G4, G5, G6, G7.
  assert (FS := fun z1 => full_set sc al (pick m p ut) bs (pick m p uo) bo (pick m p vel) (pick m p ind) l dr1 z1 Hc Z1 Z2 Z3 Z4 eq_refl).
  cbv zeta in FS. fold a1 in FS.
  set (st := fst (set_topology sc (init_state sc) a dr)) in *. set (st1 := fst (set_topology sc (init_state sc) a1 dr1)) in *.
  assert (ST : set_topology sc (init_state sc) a dr = (st, Ok true)) by (unfold st; destruct (set_topology sc (init_state sc) a dr); cbn in *; congruence).
  assert (ST1 : set_topology sc (init_state sc) a1 dr1 = (st1, Ok true)).
  { destruct (FS z) as (_ & Q & _). unfold st1. destruct (set_topology sc (init_state sc) a1 dr1); cbn in *; congruence. }
  rewrite G0 in G1, G2, G3, G4, G5, G6, G7.
  destruct (FS z) as (K0 & _ & K1 & K2 & K3 & K4 & K5 & K6 & K7). rewrite K0 in K1, K2, K3, K4, K5, K6, K7.
  (* link states *)
  destruct (update_content _ _ _ _ _ Ha ST) as (ut' & bs' & ind' & pr & _ & _ & X3 & _ & _ & _ & _ & _ & X9 & _ & _ & _ & (los & L1 & L2 & _) & _).
  destruct (update_content _ _ _ _ _ Ha ST1) as (ut1' & bs1' & ind1' & pr1 & _ & _ & V3 & _ & _ & _ & _ & _ & V9 & _ & _ & _ & (los1 & L3 & L4 & _) & _).
  assert (ind' = ind) by congruence. assert (ind1' = pick m p ind) by congruence. subst ind' ind1'.
  assert (pr1 = pr) by (assert (Q := documented_value_fun _ _ _ _ _ _ _ _ V9 X9); congruence). subst pr1.
  assert (LE : forall b u, los1 b 0%nat u = los b 0%nat (p u)) by (intros b u; rewrite L2, L4, G7, K7; reflexivity).
  assert (OK1 : forall z1, snd (chan_set_topology sc al (chan_init sc) a1 dr1 z1) = Ok tt).
  { intros z1. destruct (C68_l sc al (chan_init sc) a1 dr1 z1 st1 Hc ST1) as (ut2 & ind2 & los2 & W1 & W2 & W3 & Iff1). apply Iff1.
    assert (ut2 = pick m p ut) by congruence. assert (ind2 = pick m p ind) by congruence. assert (los2 = los1) by congruence. subst ut2 ind2 los2.
    destruct (C68_l sc al (chan_init sc) a dr z st Hc ST) as (ut3 & ind3 & los3 & W4 & W5 & W6 & Iff).
    assert (ut3 = ut) by congruence. assert (ind3 = ind) by congruence. assert (los3 = los) by congruence. subst ut3 ind3 los3.
    destruct Iff as [Iff _]. specialize (Iff H).
    intros b0 u u' Hb0 Hu Hu' N SS. cbn [pick t_batch t_num t_at] in *. rewrite !LE in SS.
    apply (Iff b0 (p u) (p u')); auto. }
  destruct (settled_now sc al a dr z CH H) as [SE ER].
  assert (SF := fun z1 => settled_now sc al a1 dr1 z1 CH1 (OK1 z1)).
  (* factors of the new topology *)
  destruct (SF z) as [SE0 ER0].
  destruct (settled_content _ _ _ _ _ _ Hc SE0) as (w1 & w2 & w3 & w4 & w5 & w6 & w7 & w8 & ls1 & w9 & Lx1 & Ls1 &
    B1 & B2 & B3 & B4 & B5 & B6 & B7 & B8 & B9 & B10 & B11 & B12 & B13 & B14 & B15 & B16 & B17 & B18 & B19 & B20 & B21 & B22 & B23 & B24).
  rewrite ER0, K0 in B1, B3, B10, B14. rewrite ER0 in B18, B19. assert (w1 = pick m p ut) by congruence. assert (w3 = pick m p ind) by congruence.
  assert (w6 = los1) by congruence. clear B11. subst w1 w3 w6. cbn [pick t_num t_batch] in B21, B22.
  destruct (settled_content _ _ _ _ _ _ Hc SE) as (u1 & u2 & u3 & u4 & u5 & u6 & u7 & u8 & ls & u9 & Lx & Ls &
    A1 & A2 & A3 & A4 & A5 & A6 & A7 & A8 & A9 & A10 & A11 & A12 & A13 & A14 & A15 & A16 & A17 & A18 & A19 & A20 & A21 & A22 & A23 & A24).
  rewrite ER, G0 in A1, A3, A10, A14. rewrite ER in A18, A19, A23. assert (u1 = ut) by congruence. assert (u3 = ind) by congruence.
  assert (u6 = los) by congruence. clear A11. subst u1 u3 u6. assert (u7 = w7) by congruence. assert (u8 = w8) by congruence. subst u7 u8.
  set (vv := fun (x : nat -> nat -> nat -> nat -> R) b (s : nat) u i => spatially_filtered (t_num ut) (Ls b s) (cross_filtered (Lx b s) (x b s)) (p u) i).
  set (conv := fun x => solved m Lx1 Ls1 (vv x)).
  assert (LSP : forall x l0 l1, sample_lsp st (t_num ut) Lx Ls x = Ok l0 -> sample_lsp st1 m Lx1 Ls1 (conv x) = Ok l1 ->
    forall b u, (b < t_batch ut)%nat -> (u < m)%nat -> l0 b 0%nat (p u) = l1 b 0%nat u).
  { intros x l0 l1 E E' b u Hb Hu. unfold sample_lsp in E, E'. rewrite A14 in E. rewrite B14 in E'. injection E as <-. injection E' as <-.
    assert (M1 : ls_mean ls b 0%nat (p u) = ls_mean ls1 b 0%nat u) by (rewrite A15, B15; cbn [ls_mean]; rewrite LE; reflexivity).
    assert (M2 : ls_std ls b 0%nat (p u) = ls_std ls1 b 0%nat u) by (rewrite A15, B15; cbn [ls_std]; rewrite LE; reflexivity).
    rewrite M1, M2. apply make_lsp_ext. intros i Hi. symmetry. unfold conv. rewrite (solved_ok m Lx1 Ls1 (vv x) b 0%nat u i Hu Hi).
    - reflexivity.
    - intros k Hk. split; [exact (cholesky_lower _ _ _ (B21 b k Hb Hk)) | exact (cholesky_diag _ _ _ (B21 b k Hb Hk))].
    - intros k Hk. split; [exact (cholesky_lower _ _ _ (B22 b k Hb Hk)) | exact (cholesky_diag _ _ _ (B22 b k Hb Hk))]. }
  exists (conv z). split; [apply OK1|]. intros srt srtd ua ba fs d. exists (conv (cd_lsp d)).
  destruct (SF (conv z)) as [SE1 ER1].
  destruct (factors_without_z sc al (chan_init sc) a1 dr1 (conv z) z) as (FZ1 & FZ2 & FZ3). rewrite B18 in FZ1. rewrite B19 in FZ2. rewrite K0 in FZ3.
  set (d1 := pick_call_draws (sc_dir sc) p (conv (cd_lsp d)) d).
  destruct (call_defined srt srtd ua ba _ _ _ _ _ _ fs d Hc SE) as [o O]. destruct (call_defined srt srtd ua ba _ _ _ _ _ _ fs d1 Hc SE1) as [o1 O1].
  exists o, o1. split; [rewrite <- ER; exact O|]. split; [rewrite <- ER1; exact O1|].
  intros b is u iu q t Hb Hu.
  apply (link_agree srt srtd ua ba sc al _ _ a a1 dr dr1 z (conv z) fs d d1 b b (p u) u o o1 Hc SE SE1 O O1);
    try rewrite ER; try rewrite ER1; try rewrite FZ3; try rewrite G0; try reflexivity.
  - intros v w Q1 Q2. assert (v = ut) by congruence. assert (w = pick m p ut) by congruence. subst v w. reflexivity.
  - intros v w Q1 Q2. assert (v = ind) by congruence. assert (w = pick m p ind) by congruence. subst v w. reflexivity.
  - intros v w Q1 Q2. assert (v = bs) by congruence. assert (w = bs) by congruence. subst v w. split; reflexivity.
  - intros v w Q1 Q2. assert (v = uo) by congruence. assert (w = pick m p uo) by congruence. subst v w. reflexivity.
  - intros v w Q1 Q2. assert (v = vel) by congruence. assert (w = pick m p vel) by congruence. subst v w. reflexivity.
  - intros v w Q1 Q2. assert (v = bo) by congruence. assert (w = bo) by congruence. subst v w. reflexivity.
  - congruence.
  - repeat split.
  - repeat split.
  - repeat split.
  - repeat split.
  - unfold d1, pick_call_draws. cbn [cd_phase]. destruct (String.eqb (sc_dir sc) "uplink"); reflexivity.
  - intros l0 l1 U0 U1. unfold used_lsps in U0, U1. destruct al.
    + unfold lsp_sampler in U0, U1. rewrite G0, A1, A18, A19 in U0. rewrite FZ3, B1, FZ1, FZ2 in U1.
      exact (LSP _ _ _ U0 U1 b u Hb Hu).
    + destruct (A23 eq_refl) as (l0' & Q1 & Q2). rewrite G0 in Q1. assert (l0' = l0) by congruence. subst l0'.
      destruct (settled_content _ _ _ _ _ _ Hc SE1) as (x1 & x2 & x3 & x4 & x5 & x6 & x7 & x8 & ls2 & x9 & Lx2 & Ls2 &
        D1 & D2 & D3 & D4 & D5 & D6 & D7 & D8 & D9 & D10 & D11 & D12 & D13 & D14 & D15 & D16 & D17 & D18 & D19 & D20 & D21 & D22 & D23 & D24).
      destruct (D23 eq_refl) as (l1' & Q1' & Q2'). rewrite ER1 in D1, D18, D19, Q1', Q2'. rewrite FZ3 in D1, Q1'.
      assert (x1 = pick m p ut) by congruence. assert (Lx2 = Lx1) by congruence. assert (Ls2 = Ls1) by congruence. assert (l1' = l1) by congruence. subst x1 Lx2 Ls2 l1'.
      exact (LSP _ _ _ Q1 Q1' b u Hb Hu).
Qed.
