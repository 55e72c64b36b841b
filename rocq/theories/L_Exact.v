(* Exact conditions under which the refuted parts of C15, C16 and C21 hold. *)
From Coq Require Import String List Reals Lra Psatz Lia.
From Verif Require Import M_Base L_Base M_Params S_Config L_Params L_Config M_Geometry M_Pathloss
  M_Scenario S_Topology L_Scenario L_Fresh L_Pathloss L_Geometry L_Trig L_Topology M_Rays S_Rays L_Rays L_RaysEx M_Cplx M_Coeff L_Coeff.
Open Scope string_scope.
Open Scope list_scope.
Open Scope R_scope.

Lemma first_height_exact sc st a dr st' bs : constructed sc -> set_topology sc st a dr = (st', Ok true) ->
  s_bs_loc st' = Some bs -> 0 < vz (t_at bs 0%nat 0%nat) ->
  exists g, s_geo st' = Some g /\ forall b u, 0 < vz (t_at bs b 0%nat) ->
    spherical_triangle (sc_elev sc) (vz (t_at bs 0%nat 0%nat)) (g_d3d g b 0%nat u) /\
    (spherical_triangle (sc_elev sc) (vz (t_at bs b 0%nat)) (g_d3d g b 0%nat u) <->
     vz (t_at bs b 0%nat) = vz (t_at bs 0%nat 0%nat)).
Proof.
  intros Hc H Hb Hpos. assert (Ha := constructed_accepted sc Hc).
  destruct (update_content _ _ _ _ _ Ha H)
    as (ut & bs' & ind & p & _ & U2 & _ & _ & _ & _ & _ & _ & _ & _ & _ & (g & G1 & G2 & _) & _).
  assert (bs' = bs) by congruence. subst bs'. exists g. split; [exact G1|]. intros b u Hlt.
  assert (He : 0 < sc_elev sc <= 90) by (destruct (ac_elev sc Ha); lra).
  rewrite G2. assert (T := triangle_slant (sc_elev sc) _ He Hpos). split; [exact T|].
  split; [|intros ->; exact T]. intros [_ T']. destruct T as [_ T]. rewrite <- T in T'. nra.
Qed.

Lemma arrival_exact sc st a dr st' : constructed sc -> set_topology sc st a dr = (st', Ok true) ->
  exists ut bs g, s_ut_loc st' = Some ut /\ s_bs_loc st' = Some bs /\ s_geo st' = Some g /\
  forall b s u,
    points_along (unit_dir (g_zoa g b s u) (g_aoa g b s u)) (vsub (t_at bs b s) (t_at ut b u)) <->
    vx (t_at ut b u) = vx (t_at bs b s) /\ vy (t_at ut b u) = vy (t_at bs b s).
Proof.
  intros Hc H. destruct (reported_angles sc _ _ _ _ Hc H) as (ut & bs & g & U1 & U2 & G1 & G).
  exists ut, bs, g. split; [exact U1|]. split; [exact U2|]. split; [exact G1|]. intros b s u.
  specialize (G b s u). cbv zeta in G. destruct G as (_ & _ & _ & _ & _ & G & _).
  set (x := vsub (t_at ut b u) (t_at bs b s)) in *. set (d := unit_dir _ _) in *.
  assert (Ex : vx x = vx (t_at ut b u) - vx (t_at bs b s)) by reflexivity.
  assert (Ey : vy x = vy (t_at ut b u) - vy (t_at bs b s)) by reflexivity.
  assert (Ez : vz x = vz (t_at ut b u) - vz (t_at bs b s)) by reflexivity.
  assert (N : 0 <= vnorm x) by apply sqrt_pos.
  assert (NN : vnorm x * vnorm x = vx x * vx x + vy x * vy x + vz x * vz x).
  { unfold vnorm. rewrite sqrt_sqrt; [reflexivity|]. unfold vdot. nra. }
  clearbody x d. unfold vscale in G. set (n := vnorm x) in *. injection G as Gx Gy Gz.
  unfold points_along, vscale, vsub. split.
  - intros (k & Hk & E). injection E as E1 E2 E3.
    assert (X : (n + k) * vx x = 0).
    { assert (K : k * vx x = n * (k * vx d)) by (rewrite <- Gx; ring).
      rewrite <- E1 in K. rewrite Rmult_plus_distr_r, K, Ex. ring. }
    assert (Y : (n + k) * vy x = 0).
    { assert (K : k * vy x = n * (k * vy d)) by (rewrite <- Gy; ring).
      rewrite <- E2 in K. rewrite Rmult_plus_distr_r, K, Ey. ring. }
    apply Rmult_integral in X. apply Rmult_integral in Y.
    assert (n = 0 -> vx x = 0 /\ vy x = 0) by (intros Z; rewrite Z in NN; split; nra).
    destruct X as [X|X], Y as [Y|Y]; try (assert (n = 0) by lra); lra.
  - intros [E1 E2]. exists n. split; [exact N|]. f_equal; lra.
Qed.

Lemma two_heights_example : exists sc a dr st' bs,
  constructed sc /\ set_topology sc (init_state sc) a dr = (st', Ok true) /\ s_bs_loc st' = Some bs /\
  0 < vz (t_at bs 0%nat 0%nat) /\ 0 < vz (t_at bs 1%nat 0%nat) /\ vz (t_at bs 1%nat 0%nat) <> vz (t_at bs 0%nat 0%nat).
Proof.
  destruct example_constructed as (sc & Hc & He & _). assert (Ha := constructed_accepted sc Hc).
  assert (E : exists st', set_topology sc (init_state sc) two_examples no_draws = (st', Ok true)).
  { unfold set_topology, need_for_update.
    cbn [two_examples a_ut_loc a_bs_loc a_in a_ut_ori a_bs_ori a_ut_vel a_los given orb negb
         store_args s_ut_loc s_bs_loc s_in or_else].
    apply update_succeeds; [exact Ha | cbn; auto ..]. }
  destruct E as [st' E].
  assert (Ebs : s_bs_loc st' = a_bs_loc two_examples).
  { destruct (step_cases _ _ _ _ _ _ Ha E) as [(_ & _ & [m C]) | (_ & _ & I & W)]; [discriminate|].
    destruct I as (_ & I2 & _). exact I2. }
  exists sc, two_examples, no_draws, st'. cbn in Ebs. eexists. split; [exact Hc|]. split; [exact E|]. split; [exact Ebs|].
  cbn. lra.
Qed.

(* C21 for an indoor link, whose state is NLoS *)
Lemma indoor_mask_l sc p l dr : constructed sc -> exists st' los ind mask n,
  set_topology sc (init_state sc) (one_ut p true l) dr = (st', Ok true) /\
  s_los st' = Some los /\ s_in st' = Some ind /\ t_at ind 0%nat 0%nat = true /\
  compute_clusters_mask st' = Ok mask /\
  documented_value (sc_env sc) (sc_fc sc) (sc_dir sc) (sc_elev sc) (los 0 0 0)%nat "numClusters" (Fin (INR n)) /\
  (2 <= n)%nat /\ forall c, mask 0%nat 0%nat 0%nat c = 1.
Proof.
  intros Hc. destruct (one_ut_call sc p true l dr Hc) as (st' & H & _ & _ & I).
  destruct (make_ready _ _ _ _ _ Hc H) as (ls & los & g & ind & bs & mask & R).
  assert (EI : ind = T 1 1 (fun _ _ => true)) by (assert (E := rd_in _ _ _ _ _ _ _ _ R); congruence).
  assert (Hi : t_at ind 0%nat 0%nat = true) by (rewrite EI; reflexivity).
  destruct (rd_nc _ _ _ _ _ _ _ _ R (los 0 0 0)%nat) as [N D].
  exists st', los, ind, mask, (n_clusters ls (los 0 0 0)%nat).
  split; [exact H|]. split; [apply R|]. split; [apply R|]. split; [exact Hi|]. split; [apply R|].
  split; [exact D|]. split; [exact (proj1 N)|].
  intros c. rewrite (rd_maskv _ _ _ _ _ _ _ _ R), Hi, (rd_excl _ _ _ _ _ _ _ _ R _ _ _ Hi). apply mask_indoor.
Qed.

(* C38 for the ratios that are generated *)
Lemma generated_phase_matrix sc st a dr st' mask srt lsps d rr :
  constructed sc -> set_topology sc st a dr = (st', Ok true) ->
  compute_clusters_mask st' = Ok mask -> gen_rays srt st' mask lsps d = Ok rr ->
  forall b s u r c q ph, rr b s u = Some r ->
    let M := phase_matrix (r_xpr r c q) ph in
    0 < r_xpr r c q /\ cnorm2 (m00 M) = 1 /\ cnorm2 (m11 M) = 1 /\
    cnorm2 (m01 M) = / r_xpr r c q /\ cnorm2 (m10 M) = / r_xpr r c q.
Proof.
  intros Hc H Hm Hg b s u r c q ph Hr. destruct (xpr_l _ _ _ _ _ _ _ _ _ _ Hc H Hm Hg) as (los & _ & X).
  destruct (X _ _ _ _ Hr) as (mu & sg & _ & _ & Y). destruct (Y c q) as [P _].
  split; [exact P|]. exact (C38_l _ _ P).
Qed.
