(* The numbering of the UTs and the distribution of the large scale parameters. *)
From Coq Require Import Reals String List Bool Arith Lia Lra.
From Verif Require Import M_Base L_Base M_Params S_Config L_Params L_Config M_Geometry M_Pathloss M_Scenario
  M_Lsp S_Linear L_Linear S_Lsp S_Topology L_Scenario L_Fresh L_Topology L_Lsp M_Rays M_Channel S_Channel L_Chol L_Channel
  L_Corr S_Isolation L_Isolation S_Renumber L_Renumber.
Import ListNotations.
Open Scope string_scope.
Open Scope list_scope.
Open Scope R_scope.

Lemma column_sigmas sc los lp lp' : documented_column sc los lp -> documented_column sc los lp' ->
  lp_sigmaDS lp = lp_sigmaDS lp' /\ lp_sigmaSF lp = lp_sigmaSF lp' /\ lp_sigmaK lp = lp_sigmaK lp' /\
  lp_muDS lp = lp_muDS lp' /\ lp_muK lp = lp_muK lp'.
Proof.
  unfold documented_column. cbv zeta.
  intros (A1 & _ & _ & A4 & _ & _ & A7 & _ & _ & A10 & A11 & _) (B1 & _ & _ & B4 & _ & _ & B7 & _ & _ & B10 & B11 & _).
  assert (F := fun n x y H K => documented_value_fun (sc_env sc) (sc_fc sc) (sc_dir sc) (sc_elev sc) los n x y H K).
  repeat split;
    match goal with |- ?x = ?y => assert (Fin x = Fin y) by (eapply F; eassumption); congruence end.
Qed.

(* the parameters sampled when a whole topology is set, and the variates behind them *)
Lemma variates sc ut bs uo bo vel ind l dr z0 b : constructed sc ->
  let a := full_args ut bs uo bo vel ind l in
  let run z := chan_set_topology sc false (chan_init sc) a dr z in
  snd (run z0) = Ok tt -> (b < t_batch ut)%nat ->
  exists st los C S Lx Ls F V,
    set_topology sc (init_state sc) a dr = (st, Ok true) /\ s_los st = Some los /\ cross_matrix st = Ok C /\ spatial_matrix st = Ok S /\
    (forall u, (u < t_num ut)%nat -> is_cholesky 7 (C b 0%nat u) (Lx b 0%nat u)) /\
    (forall i, (i < 7)%nat -> is_cholesky (t_num ut) (S b 0%nat i) (Ls b 0%nat i)) /\
    (forall z : nat -> nat -> R, snd (run (fun _ _ => z)) = Ok tt /\ sample_lsp st (t_num ut) Lx Ls (fun _ _ => z) = Ok (F z) /\
       c_lsp (fst (run (fun _ _ => z))) = Some (F z)) /\
    (forall u lp, documented_column sc (los b 0%nat u) lp ->
       (forall z, deviation l_ds F b u z = lp_sigmaDS lp * V 0%nat u z) /\
       (forall z, deviation l_sf F b u z = lp_sigmaSF lp / 10 * V 3%nat u z) /\
       (forall z, deviation l_k F b u z = lp_sigmaK lp / 10 * V 4%nat u z)) /\
    (forall i u u', (i < 7)%nat -> (u < t_num ut)%nat -> (u' < t_num ut)%nat ->
       covariance (t_num ut) (V i u) (V i u') = S b 0%nat i u u') /\
    (forall i j u, (i < 7)%nat -> (j < 7)%nat -> (u < t_num ut)%nat ->
       (forall w, (w < u)%nat -> state_of (t_at ind b w) (los b 0%nat w) <> state_of (t_at ind b u) (los b 0%nat u)) ->
       covariance (t_num ut) (V i u) (V j u) = C b 0%nat u i j).
Proof.
  intros Hc a run H Hb. subst run. cbv beta in *. assert (Ha := constructed_accepted sc Hc).
  assert (CH : changes_topology a) by (left; discriminate).
  destruct (full_sizes _ _ _ _ _ _ _ _ _ _ _ Hc H) as (Z1 & Z2 & Z3 & Z4 & Z5).
  assert (FS := fun z => full_set sc false ut bs uo bo vel ind l dr z Hc Z1 Z2 Z3 Z4 Z5). cbv zeta in FS. fold a in FS.
  destruct (set_topology sc (init_state sc) a dr) as [st r] eqn:ST. destruct (FS z0) as (G0 & G0' & _). cbn [fst snd] in G0, G0', FS. subst r.
  assert (U : s_ut_loc st = Some ut /\ s_bs_loc st = Some bs /\ s_in st = Some ind) by (destruct (FS z0) as (Q & _ & Q1 & Q2 & _ & _ & _ & Q3 & _); rewrite Q in *; tauto).
  destruct U as (U1 & U2 & U3).
  destruct (C68_l sc false (chan_init sc) a dr z0 st Hc ST) as (ut3 & ind3 & los & W4 & W5 & L1 & Iff0).
  assert (ut3 = ut) by congruence. assert (ind3 = ind) by congruence. subst ut3 ind3.
  assert (OK : forall z, snd (chan_set_topology sc false (chan_init sc) a dr z) = Ok tt).
  { intros z. destruct (C68_l sc false (chan_init sc) a dr z st Hc ST) as (ut3 & ind3 & los3 & W6 & W7 & W8 & Iff).
    assert (ut3 = ut) by congruence. assert (ind3 = ind) by congruence. assert (los3 = los) by congruence. subst ut3 ind3 los3.
    apply Iff, Iff0, H. }
  destruct (chan_set_topology sc false (chan_init sc) a dr z0) as [c0 r0] eqn:E0. cbn [snd] in H. subst r0. cbn [fst] in G0.
  destruct (change_ok _ _ _ _ _ _ _ E0 CH) as (ST0 & ut2 & bs2 & Cm & Sm & Lx & Ls & mask & A1 & A2 & A3 & A4 & A5 & A6 & A7 & A8 & A9 & A10 & A11).
  rewrite G0 in A1, A2, A3, A4. assert (ut2 = ut) by congruence. assert (bs2 = bs) by congruence. subst ut2 bs2.
  destruct (C19_l sc _ _ _ _ Hc ST) as (los1 & C1 & L1' & HC & P19). assert (C1 = Cm) by congruence. subst C1.
  destruct (C20_l sc _ _ _ _ Hc ST) as (ut2 & ind2 & los2 & S2 & _ & _ & _ & HS & P20).
  assert (S2 = Sm) by congruence. subst S2.
  assert (HLx : forall u, (u < t_num ut)%nat -> is_cholesky 7 (Cm b 0%nat u) (Lx b 0%nat u)).
  { intros u Hu. apply cholesky_sound; [apply P19|]. exact (cholesky_all_at _ _ _ _ _ _ b 0%nat u A5 Hb ltac:(lia) Hu). }
  assert (HLs : forall i, (i < 7)%nat -> is_cholesky (t_num ut) (Sm b 0%nat i) (Ls b 0%nat i)).
  { intros i Hi. destruct (scenario_update sc (chan_init sc) a dr st Hc ST) as (ut4 & bs4 & Cm4 & Sm4 & mk4 & V1 & V2 & _ & _ & V3 & V4 & _ & _ & _ & Sy).
    assert (ut4 = ut) by congruence. assert (Sm4 = Sm) by congruence. subst ut4 Sm4.
    apply cholesky_sound; [destruct (Sy b 0%nat i); [assumption|lia]|]. exact (cholesky_all_at _ _ _ _ _ _ b 0%nat i A6 Hb ltac:(lia) Hi). }
  assert (HF : exists ls, s_lsp st = Some ls).
  { destruct (scenario_update sc (chan_init sc) a dr st Hc ST) as (ut4 & bs4 & Cm4 & Sm4 & mk4 & _ & _ & _ & _ & _ & _ & _ & _ & Q & _). exact Q. }
  destruct HF as (ls & HLS).
  set (F := fun z : nat -> nat -> R => fun b s u => make_lsp (ls_mean ls b s u) (ls_std ls b s u)
     (fun i => spatially_filtered (t_num ut) (Ls b s) (cross_filtered (Lx b s) z) u i)).
  assert (EF : forall z : nat -> nat -> R, sample_lsp st (t_num ut) Lx Ls (fun _ _ => z) = Ok (F z)).
  { intros z. unfold sample_lsp. rewrite HLS. reflexivity. }
  destruct (C60_l sc _ _ _ _ Cm Sm Lx Ls b 0%nat Hc ST HC HS (t_num ut) HLx HLs) as (los3 & ind3 & V & L3 & I3 & V1 & V2 & V3 & V4 & V5 & V6).
  assert (los3 = los) by congruence. assert (ind3 = ind) by congruence. subst los3 ind3.
  exists st, los, Cm, Sm, Lx, Ls, F, V.
  split; [reflexivity|]. split; [exact L1|]. split; [exact A3|]. split; [exact A4|]. split; [exact HLx|]. split; [exact HLs|].
  split; [| split; [| split; [exact V3 | exact V5]]].
  - intros z. split; [apply OK|]. split; [apply EF|].
    destruct (factors_without_z sc false (chan_init sc) a dr z0 (fun _ _ => z)) as (X1 & X2 & X3). rewrite E0 in X1, X2, X3. cbn [fst] in X1, X2, X3.
    specialize (OK (fun _ _ => z)).
    destruct (chan_set_topology sc false (chan_init sc) a dr (fun _ _ => z)) as [c1 r1] eqn:E1. cbn [snd fst] in *. subst r1.
    destruct (change_ok _ _ _ _ _ _ _ E1 CH) as (_ & ut2' & bs2' & Cm' & Sm' & Lx' & Ls' & mask' & B1 & B2 & _ & _ & _ & _ & _ & B8 & B9 & _ & B11).
    destruct (B11 eq_refl) as (f & Q1 & Q2). rewrite <- X3, G0 in B1, Q1. assert (ut2' = ut) by congruence. assert (Lx' = Lx) by congruence.
    assert (Ls' = Ls) by congruence. subst ut2' Lx' Ls'. rewrite EF in Q1. congruence.
  - intros u lp Dl.
    assert (Z : forall i, V i u (fun _ _ => 0) = 0) by (intros i; exact (lin_zero _ _ (V1 i u))).
    assert (FM : forall z, l_ds (F z b 0%nat u) = pow10 (lp_sigmaDS lp * V 0%nat u z + lp_muDS lp) /\
        l_sf (F z b 0%nat u) = pow10 (lp_sigmaSF lp * V 3%nat u z / 10) /\
        l_k (F z b 0%nat u) = pow10 ((lp_sigmaK lp * V 4%nat u z + lp_muK lp) / 10)).
    { intros z. destruct (V2 (fun _ _ => z)) as (f & Q1 & Q2). rewrite EF in Q1. injection Q1 as <-.
      destruct (Q2 u) as (lp' & Dl' & M1 & _ & M3 & M4 & _). destruct (column_sigmas sc _ _ _ Dl Dl') as (-> & -> & -> & -> & ->).
      split; [exact M1|]. split; [exact M3 | exact M4]. }
    unfold deviation. change (fun x => ln x / ln 10) with log10.
    repeat split; intros z; destruct (FM z) as (M1 & M3 & M4); destruct (FM (fun _ _ => 0)) as (N1 & N3 & N4).
    + rewrite M1, N1, !Z. fold (log10 (pow10 (lp_sigmaDS lp * V 0%nat u z + lp_muDS lp))) (log10 (pow10 (lp_sigmaDS lp * 0 + lp_muDS lp))). rewrite !log10_pow10. ring.
    + rewrite M3, N3, !Z. fold (log10 (pow10 (lp_sigmaSF lp * V 3%nat u z / 10))) (log10 (pow10 (lp_sigmaSF lp * 0 / 10))). rewrite !log10_pow10. field.
    + rewrite M4, N4, !Z. fold (log10 (pow10 ((lp_sigmaK lp * V 4%nat u z + lp_muK lp) / 10))) (log10 (pow10 ((lp_sigmaK lp * 0 + lp_muK lp) / 10))).
      rewrite !log10_pow10. field.
Qed.

(* ---- one parameter: the covariances follow the renumbering ---- *)
Lemma C104_one_l : forall sc ut bs uo bo vel ind l dr z0 m p, constructed sc ->
  let a := full_args ut bs uo bo vel ind l in
  let a1 := full_args (pick m p ut) bs (pick m p uo) bo (pick m p vel) (pick m p ind) l in
  let run a dr z := chan_set_topology sc false (chan_init sc) a dr z in
  snd (run a dr z0) = Ok tt -> picks (t_num ut) m p ->
  forall b, (b < t_batch ut)%nat ->
  exists F F1,
    (forall z : nat -> nat -> R, snd (run a dr (fun _ _ => z)) = Ok tt /\ c_lsp (fst (run a dr (fun _ _ => z))) = Some (F z)) /\
    (forall z : nat -> nat -> R, snd (run a1 (pick_topo_draws p dr) (fun _ _ => z)) = Ok tt /\
       c_lsp (fst (run a1 (pick_topo_draws p dr) (fun _ _ => z))) = Some (F1 z)) /\
    forall x u u', (x = l_ds \/ x = l_sf \/ x = l_k) -> (u < m)%nat -> (u' < m)%nat ->
      covariance m (deviation x F1 b u) (deviation x F1 b u') =
      covariance (t_num ut) (deviation x F b (p u)) (deviation x F b (p u')).
Proof.
  intros sc ut bs uo bo vel ind l dr z0 m p Hc a a1 run H [P1 P2] b Hb. subst run. cbv beta in *.
  assert (Ha := constructed_accepted sc Hc).
  destruct (C104_l sc false ut bs uo bo vel ind l dr z0 m p Hc H (conj P1 P2)) as (z1 & H1 & _). fold a1 in H1.
  destruct (full_sizes _ _ _ _ _ _ _ _ _ _ _ Hc H) as (Z1 & Z2 & Z3 & Z4 & Z5).
  destruct (full_set sc false ut bs uo bo vel ind l dr z0 Hc Z1 Z2 Z3 Z4 Z5) as (G0 & _ & G1 & _ & _ & _ & _ & G6 & G7).
  destruct (full_set sc false (pick m p ut) bs (pick m p uo) bo (pick m p vel) (pick m p ind) l (pick_topo_draws p dr) z0 Hc Z1 Z2 Z3 Z4 eq_refl)
    as (K0 & _ & K1 & _ & _ & _ & _ & K6 & K7).
  fold a in G0, G1, G6, G7. fold a1 in K0, K1, K6, K7.
  destruct (variates sc ut bs uo bo vel ind l dr z0 b Hc H Hb) as (st & los & C & S & Lx & Ls & F & V & ST & L1 & EC & ES & _ & _ & HF & HV & HS & _).
  destruct (variates sc (pick m p ut) bs (pick m p uo) bo (pick m p vel) (pick m p ind) l (pick_topo_draws p dr) z1 b Hc H1 Hb)
    as (st1 & los1 & C1 & S1 & Lx1 & Ls1 & F1 & V1 & ST1 & L3 & EC1 & ES1 & _ & _ & HF1 & HV1 & HS1 & _).
  fold a in ST, HF. fold a1 in ST1, HF1.
  rewrite ST in G0. rewrite ST1 in K0. cbn [fst] in G0, K0. rewrite G0 in G1, G6, G7. rewrite K0 in K1, K6, K7.
  exists F, F1. split; [intros z; destruct (HF z) as (Q1 & _ & Q2); split; assumption|].
  split; [intros z; destruct (HF1 z) as (Q1 & _ & Q2); split; assumption|].
  destruct (update_content _ _ _ _ _ Ha ST) as (ut' & bs' & ind' & pr & Y1 & _ & X3 & _ & _ & _ & _ & _ & X9 & _ & _ &
     (g & D1 & _ & _ & _ & _ & _ & D7) & (los' & L1' & L2 & cl & cn & M1 & M2 & M3 & _) & _).
  destruct (update_content _ _ _ _ _ Ha ST1) as (ut1' & bs1' & ind1' & pr1 & Y1' & _ & X3' & _ & _ & _ & _ & _ & X9' & _ & _ &
     (g1 & D1' & _ & _ & _ & _ & _ & D7') & (los1' & L3' & L4 & cl1 & cn1 & M1' & M2' & M3' & _) & _).
  assert (ind' = ind) by congruence. assert (ind1' = pick m p ind) by congruence. assert (ut' = ut) by congruence. assert (ut1' = pick m p ut) by congruence.
  assert (E8 : los' = los) by congruence. assert (E9 : los1' = los1) by congruence. rewrite E8 in L2, M3. rewrite E9 in L4, M3'. clear E8 E9 L1' L3'.
  subst ind' ind1' ut' ut1'.
  assert (pr1 = pr) by (assert (Q := documented_value_fun _ _ _ _ _ _ _ _ X9' X9); congruence). subst pr1.
  assert (cl1 = cl) by congruence. assert (cn1 = cn) by congruence. subst cl1 cn1.
  assert (LE : forall u, los1 b 0%nat u = los b 0%nat (p u)) by (intros u; rewrite L2, L4, G7, K7; reflexivity).
  assert (SE : forall i u u', (u < m)%nat -> (u' < m)%nat -> S1 b 0%nat i u u' = S b 0%nat i (p u) (p u')).
  { intros i u u' Hu Hu'.
    assert (EQ : Nat.eqb u u' = Nat.eqb (p u) (p u')).
    { destruct (Nat.eqb_spec u u') as [->|N]; [rewrite Nat.eqb_refl; reflexivity|]. symmetry. apply Nat.eqb_neq. intros E. apply N. auto. }
    unfold spatial_matrix in ES, ES1. rewrite M3, L1, D1, X3 in ES. rewrite M3', L3, D1', X3' in ES1.
    injection ES as <-. injection ES1 as <-. unfold spatial_corr, pair_filter. cbn [ls_col]. rewrite D7, D7', !LE, EQ. reflexivity. }
  assert (COL : forall u, exists lp, documented_column sc (los b 0%nat u) lp).
  { intros u. destruct (los b 0%nat u); [exists cl | exists cn]; apply link_column_documented; assumption. }
  intros x u u' Hx Hu Hu'. destruct (COL (p u)) as (lp & Dl). destruct (COL (p u')) as (lp' & Dl').
  destruct (HV (p u) lp Dl) as (A1 & A2 & A3). destruct (HV (p u') lp' Dl') as (A4 & A5 & A6).
  rewrite <- LE in Dl, Dl'. destruct (HV1 u lp Dl) as (B1 & B2 & B3). destruct (HV1 u' lp' Dl') as (B4 & B5 & B6).
  change (t_num (pick m p ut)) with m in HS1.
  destruct Hx as [-> | [-> | ->]].
  - rewrite (cov_ext _ _ _ _ _ B1 B4), (cov_ext _ _ _ _ _ A1 A4), !cov_scale, HS, HS1, SE by (lia || auto). reflexivity.
  - rewrite (cov_ext _ _ _ _ _ B2 B5), (cov_ext _ _ _ _ _ A2 A5), !cov_scale, HS, HS1, SE by (lia || auto). reflexivity.
  - rewrite (cov_ext _ _ _ _ _ B3 B6), (cov_ext _ _ _ _ _ A3 A6), !cov_scale, HS, HS1, SE by (lia || auto). reflexivity.
Qed.

(* ---- two parameters: they do not ---- *)
Lemma exchange_picks : picks 2 2 exchange.
Proof. unfold exchange. split; intros; lia. Qed.

Lemma always_los sc ut bs uo bo vel ind dr st los : constructed sc ->
  set_topology sc (init_state sc) (full_args ut bs uo bo vel ind (Some true)) dr = (st, Ok true) -> s_los st = Some los ->
  (forall b u, t_at ind b u = false) -> forall b s u, los b s u = true.
Proof.
  intros Hc E L In b s u. assert (Ha := constructed_accepted sc Hc).
  destruct (step_cases _ _ _ _ _ _ Ha E) as [(_ & _ & [m Hm]) | (_ & _ & I & _)]; [discriminate|].
  destruct I as (_ & _ & _ & _ & _ & I6 & I7 & _). cbn in I6, I7.
  destruct (los_semantics sc _ _ _ _ Hc E) as (los' & ind' & p & L2 & I2 & _ & LS).
  assert (los' = los) by congruence. assert (ind' = ind) by congruence. subst los' ind'.
  apply LS. rewrite I7. split; [apply In | reflexivity].
Qed.

Lemma C104_refuted_l : forall sc, constructed sc ->
  exists ut bs uo bo vel ind l dr F F1,
    let run a dr z := chan_set_topology sc false (chan_init sc) a dr (fun _ _ => z) in
    let a := full_args ut bs uo bo vel ind l in
    let a1 := full_args (pick 2 exchange ut) bs (pick 2 exchange uo) bo (pick 2 exchange vel) (pick 2 exchange ind) l in
    t_batch ut = 1%nat /\ t_num ut = 2%nat /\
    (forall z, snd (run a dr z) = Ok tt /\ c_lsp (fst (run a dr z)) = Some (F z)) /\
    (forall z, snd (run a1 (pick_topo_draws exchange dr) z) = Ok tt /\ c_lsp (fst (run a1 (pick_topo_draws exchange dr) z)) = Some (F1 z)) /\
    covariance 2 (deviation l_ds F1 0 0) (deviation l_sf F1 0 0) < covariance 2 (deviation l_ds F 0 1) (deviation l_sf F 0 1) < 0.
Proof.
  intros sc Hc. assert (Ha := constructed_accepted sc Hc).
  set (ut := T 1 2 (fun _ u => V3 (30 * INR u) 0 1.5)). set (bs := t1 (V3 0 0 600000)). set (uo := T 1 2 (fun _ _ : nat => V3 0 0 0)).
  set (bo := t1 (V3 0 0 0)). set (ind := T 1 2 (fun _ _ : nat => false)).
  exists ut, bs, uo, bo, uo, ind, (Some true), no_draws.
  set (a := full_args ut bs uo bo uo ind (Some true)).
  destruct (two_ut_cov_at sc Hc) as (st0 & C0 & S0 & lp & ST0 & EC0 & ES0 & Dl & _ & CV).
  change (two_uts 30) with a in ST0.
  assert (H : snd (chan_set_topology sc false (chan_init sc) a no_draws (fun _ _ _ _ => 0)) = Ok tt).
  { destruct (C68_l sc false (chan_init sc) a no_draws (fun _ _ _ _ => 0) st0 Hc ST0) as (ut2 & ind2 & los2 & Y1 & _ & _ & Iff). apply Iff.
    destruct (full_set sc false ut bs uo bo uo ind (Some true) no_draws (fun _ _ _ _ => 0) Hc eq_refl eq_refl (le_n 1) eq_refl eq_refl) as (G0 & _ & G1 & _).
    fold a in G0, G1. rewrite ST0 in G0. cbn [fst] in G0. rewrite G0 in G1. assert (ut2 = ut) by congruence. subst ut2. cbn [ut t_batch t_num t_at vx vy].
    intros b u u' _ _ _ N _. left. intros E. apply N. apply INR_eq. lra. }
  destruct (C104_l sc false ut bs uo bo uo ind (Some true) no_draws (fun _ _ _ _ => 0) 2 exchange Hc H exchange_picks) as (z1 & H1 & _).
  set (a1 := full_args (pick 2 exchange ut) bs (pick 2 exchange uo) bo (pick 2 exchange uo) (pick 2 exchange ind) (Some true)) in *.
  destruct (variates sc ut bs uo bo uo ind (Some true) no_draws _ 0%nat Hc H ltac:(cbn; lia))
    as (st & los & C & S & Lx & Ls & F & V & ST & L1 & EC & ES & HLx & HLs & HF & _ & _ & _).
  destruct (variates sc (pick 2 exchange ut) bs (pick 2 exchange uo) bo (pick 2 exchange uo) (pick 2 exchange ind) (Some true)
     (pick_topo_draws exchange no_draws) z1 0%nat Hc H1 ltac:(cbn; lia))
    as (st1 & los1 & C1 & S1 & Lx1 & Ls1 & F1 & V1 & ST1 & L3 & EC1 & ES1 & _ & _ & HF1 & HV1 & _ & HC1).
  fold a in ST, HF. fold a1 in ST1, HF1. assert (st0 = st) by congruence. subst st0. assert (C0 = C) by congruence. assert (S0 = S) by congruence. subst C0 S0.
  exists F, F1. cbv zeta. fold a a1. split; [reflexivity|]. split; [reflexivity|].
  split; [intros z; destruct (HF z) as (Q1 & _ & Q2); split; assumption|].
  split; [intros z; destruct (HF1 z) as (Q1 & _ & Q2); split; assumption|].
  destruct (CV Lx Ls F HLx HLs ltac:(intros z; apply HF)) as (N1 & N2).
  change (covariance 2 _ _) with (covariance 2 (deviation l_ds F 0 1) (deviation l_sf F 0 1)) in N2.
  split; [|apply N2]. eapply Rle_lt_trans; [|apply N2].
  assert (LT := always_los sc _ _ _ _ _ _ _ _ _ Hc ST L1 ltac:(reflexivity)).
  assert (LT1 := always_los sc _ _ _ _ _ _ _ _ _ Hc ST1 L3 ltac:(reflexivity)).
  destruct (HV1 0%nat lp ltac:(rewrite LT1; exact Dl)) as (B1 & B2 & _).
  rewrite (cov_ext _ _ _ _ _ B1 B2), cov_scale.
  change 2%nat with (t_num (pick 2 exchange ut)) at 1. rewrite (HC1 0%nat 3%nat 0%nat ltac:(lia) ltac:(lia) ltac:(cbn; lia) ltac:(intros; lia)).
  destruct (C19_l sc _ _ _ _ Hc ST) as (l4 & C4 & J1 & J2 & P4). destruct (C19_l sc _ _ _ _ Hc ST1) as (l5 & C5 & J3 & J4 & P5).
  assert (l4 = los) by congruence. assert (l5 = los1) by congruence. assert (C4 = C) by congruence. assert (C5 = C1) by congruence. subst l4 l5 C4 C5.
  destruct (P4 0%nat 0%nat 1%nat) as (_ & _ & _ & _ & T4 & _). destruct (P5 0%nat 0%nat 0%nat) as (_ & _ & _ & _ & T5 & _).
  specialize (T4 "DS" "SF" 0%nat 3%nat ltac:(cbn; tauto) LI_DS LI_SF). specialize (T5 "DS" "SF" 0%nat 3%nat ltac:(cbn; tauto) LI_DS LI_SF).
  rewrite LT in T4. rewrite LT1 in T5.
  assert (Q := documented_value_fun _ _ _ _ _ _ _ _ T4 T5). assert (Q' : C 0%nat 0%nat 1%nat 0%nat 3%nat = C1 0%nat 0%nat 0%nat 0%nat 3%nat) by congruence.
  rewrite <- Q'. lra.
Qed.
