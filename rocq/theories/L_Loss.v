(* Lemmas on the composed path loss and scintillation (C43, C57, C58). *)
From Coq Require Import Reals String List Bool Arith Lia Lra ZArith.
From Verif Require Import M_Base L_Base M_Params S_Config L_Params L_Config M_Geometry M_Pathloss M_Scenario
  M_Lsp S_Topology S_Pathloss L_Pathloss L_Scenario L_Fresh L_Topology.
Import ListNotations.
Open Scope string_scope.
Open Scope list_scope.
Open Scope R_scope.

Lemma num_ext v r : pval_ext v = Fin r -> num_of v = Ok r.
Proof. destruct v; cbn; intros H; inversion H; reflexivity. Qed.

Lemma fspl_free_space fc d : fspl fc d = free_space fc d.
Proof. reflexivity. Qed.

Lemma pathloss_composed sc st a dr st' : constructed sc -> set_topology sc st a dr = (st', Ok true) ->
  exists los g f sl sn cl,
    s_los st' = Some los /\ s_geo st' = Some g /\ sample_pathloss st' = Ok f /\
    let doc := documented_value (sc_env sc) (sc_fc sc) (sc_dir sc) (sc_elev sc) in
    doc true "sigmaSF" (Fin sl) /\ doc false "sigmaSF" (Fin sn) /\ doc false "CL" (Fin cl) /\
    0 <= sl /\ 0 <= sn /\ 0 <= cl /\
    forall b s u, f b s u =
      free_space (sc_fc sc) (g_d3d g b s u)
      + (if los b s u then sl * dr_z_los dr b s u else sn * dr_z_nlos dr b s u + cl)
      + pl_gas (set_weather (a_weather a)) (sc_fc sc) (sc_elev sc)
      + pl_scint (set_weather (a_weather a)) (sc_fc sc) (sc_elev sc).
Proof.
  intros Hc H. assert (Ha := constructed_accepted sc Hc).
  destruct (update_content _ _ _ _ _ Ha H) as (ut & bs & ind & p & _ & _ & _ & _ & _ & _ & _ & _ & _ & _ & _ &
    (g & G1 & G2 & _) & (los & L1 & _ & cl' & cn' & _ & _ & _ & pl & P1 & P2) & _).
  destruct (direct_lookups sc Ha) as (_ & _ & _ & (vc & rc & C1 & C2 & C3) & (vl & rl & S1 & S2 & S3) & (vn & rn & N1 & N2 & N3)).
  unfold compute_pathlosses in P2. rewrite C1, S1, N1 in P2. cbn [bind] in P2.
  rewrite (num_ext _ _ C2), (num_ext _ _ S2), (num_ext _ _ N2) in P2. cbn [bind] in P2.
  injection P2 as <-.
  exists los, g, (fun b s u => pl_total
    (pl_basic (los b s u) (sc_fc sc) (slant_range (sc_elev sc) (vz (t_at bs 0%nat 0%nat))) rc (rl * dr_z_los dr b s u) (rn * dr_z_nlos dr b s u))
    (pl_gas (set_weather (a_weather a)) (sc_fc sc) (sc_elev sc)) (pl_scint (set_weather (a_weather a)) (sc_fc sc) (sc_elev sc)) pl_entry), rl, rn, rc.
  split; [exact L1|]. split; [exact G1|].
  split; [unfold sample_pathloss; rewrite P1; reflexivity|].
  cbv zeta.
  split; [rewrite <- S2; apply (documented sc true "sigmaSF"); [exact Ha | exact S1]|].
  split; [rewrite <- N2; apply (documented sc false "sigmaSF"); [exact Ha | exact N1]|].
  split; [rewrite <- C2; apply (documented sc false "CL"); [exact Ha | exact C1]|].
  split; [exact S3|]. split; [exact N3|]. split; [exact C3|].
  intros b s u. rewrite G2, <- fspl_free_space. unfold pl_total, pl_basic, pl_entry.
  destruct (los b s u); ring.
Qed.

Lemma free_space_laws fc d : 0 < fc -> 0 < d ->
  (forall d', d < d' -> free_space fc d < free_space fc d') /\
  (forall fc', fc < fc' -> free_space fc d < free_space fc' d) /\
  free_space fc (10 * d) = free_space fc d + 20 /\ free_space (10 * fc) d = free_space fc d + 20.
Proof.
  intros Hf Hd. repeat split.
  - intros d' H. apply fspl_dist; assumption.
  - intros f' H. apply fspl_freq; assumption.
  - apply fspl_decade_d; assumption.
  - apply fspl_decade_f; assumption.
Qed.

(* ---- scintillation ---- *)
Lemma iono_law fc w e : 0 < fc < 6 * 10 ^ 9 ->
  0 < pl_scint w fc e /\ (forall w' e', pl_scint w' fc e' = pl_scint w fc e) /\
  (forall fc', fc < fc' < 6 * 10 ^ 9 -> pl_scint w fc' e < pl_scint w fc e) /\
  pl_scint w (4 * 10 ^ 9) e = 1.1 / sqrt 2 /\
  (pl_scint w fc e) ^ 2 * (fc / (4 * 10 ^ 9)) ^ 3 = 1.1 ^ 2 / 2.
Proof.
  assert (B : forall x, 0 < x < 6 * 10 ^ 9 -> Rleb 6 (x / Rpower 10 9) = false).
  { intros x Hx. apply Rleb_false. rewrite pow10_9.
    apply Rmult_lt_reg_r with (10 ^ 9); [lra|]. unfold Rdiv. rewrite Rmult_assoc, Rinv_l by lra. lra. }
  assert (S2 : 0 < sqrt 2) by (apply sqrt_lt_R0; lra).
  assert (E : forall x w' e', 0 < x < 6 * 10 ^ 9 -> pl_scint w' x e' = scint_iono (x / 10 ^ 9)).
  { intros x w' e' Hx. unfold pl_scint. rewrite (B x Hx), pow10_9. reflexivity. }
  intros H. split; [| split; [| split; [| split]]].
  - rewrite (E fc w e H). unfold scint_iono.
    apply Rdiv_lt_0_compat; [apply Rmult_lt_0_compat; [lra | apply Rpower_pos] | exact S2].
  - intros w' e'. rewrite !E by exact H. reflexivity.
  - intros fc' H'. rewrite !E by lra. unfold scint_iono.
    apply Rmult_lt_compat_r; [apply Rinv_0_lt_compat, S2|]. apply Rmult_lt_compat_l; [lra|].
    unfold Rpower. apply exp_increasing.
    assert (L : ln (fc / 10 ^ 9 / 4) < ln (fc' / 10 ^ 9 / 4)).
    { apply ln_increasing; [apply Rdiv_lt_0_compat; [apply Rdiv_lt_0_compat|]; lra|].
      apply Rmult_lt_compat_r; [lra|]. apply Rmult_lt_compat_r; [apply Rinv_0_lt_compat; lra | lra]. }
    lra.
  - rewrite E by lra. unfold scint_iono. replace (4 * 10 ^ 9 / 10 ^ 9 / 4) with 1 by field.
    unfold Rpower. rewrite ln_1, Rmult_0_r, exp_0. f_equal. ring.
  - rewrite (E fc w e H). unfold scint_iono. set (x := fc / 10 ^ 9 / 4).
    assert (X : 0 < x) by (unfold x; apply Rdiv_lt_0_compat; [apply Rdiv_lt_0_compat|]; lra).
    replace (fc / (4 * 10 ^ 9)) with x by (unfold x; field).
    assert (P : Rpower x (-1.5) ^ 2 * x ^ 3 = 1).
    { replace (x ^ 3) with (Rpower x 3) by (replace 3 with (INR 3) by (cbn; lra); apply Rpower_pow, X).
      replace (Rpower x (-1.5) ^ 2) with (Rpower x (-1.5) * Rpower x (-1.5)) by ring.
      rewrite <- !Rpower_plus. replace (-1.5 + -1.5 + 3) with 0 by lra. apply Rpower_O, X. }
    assert (Q : sqrt 2 ^ 2 = 2) by (apply pow2_sqrt; lra).
    replace ((1.1 * Rpower x (-1.5) / sqrt 2) ^ 2 * x ^ 3) with (1.1 ^ 2 * (Rpower x (-1.5) ^ 2 * x ^ 3) / sqrt 2 ^ 2)
      by (field; lra).
    rewrite P, Q. field.
Qed.

Lemma sin_elev_half e : 30 <= e <= 90 -> 1 / 2 <= sin (e * (PI / 180)) <= 1.
Proof.
  intros H. assert (P := PI_RGT_0). split; [| apply SIN_bound].
  assert (A : PI / 6 <= e * (PI / 180)) by (replace (PI / 6) with (30 * (PI / 180)) by field; apply Rmult_le_compat_r; lra).
  assert (B : e * (PI / 180) <= PI / 2) by (replace (PI / 2) with (90 * (PI / 180)) by field; apply Rmult_le_compat_r; lra).
  rewrite <- sin_PI6. apply sin_incr_1; lra.
Qed.

Lemma path_length_wrong e : 30 <= e <= 90 -> itu_path_length e < scint_path_length e.
Proof.
  intros H. assert (S := sin_elev_half e H). unfold itu_path_length, scint_path_length, deg_2_rad.
  set (s := sin (e * (PI / 180))) in *. set (q := sqrt (s ^ 2 + 2.35 / 10 ^ 4)).
  set (r := sqrt (s ^ 2 + 2.35 / 10 ^ 4 + s)).
  assert (Q2 : q * q = s ^ 2 + 2.35 / 10 ^ 4) by (apply sqrt_sqrt; nra).
  assert (R2 : r * r = s ^ 2 + 2.35 / 10 ^ 4 + s) by (apply sqrt_sqrt; nra).
  assert (Q0 : 0 <= q) by apply sqrt_pos. assert (R0 : 0 < r) by (apply sqrt_lt_R0; nra).
  assert (QS : s < q) by nra.
  assert (L : r < q + s) by nra.
  apply Rmult_lt_compat_l; [lra|]. apply Rinv_lt_contravar; nra.
Qed.

Lemma path_length_zenith : itu_path_length 90 < 1001 /\ 1400 < scint_path_length 90.
Proof.
  unfold itu_path_length, scint_path_length, deg_2_rad.
  replace (90 * (PI / 180)) with (PI / 2) by field. rewrite sin_PI2.
  set (q := sqrt (1 ^ 2 + 2.35 / 10 ^ 4)). set (r := sqrt (1 ^ 2 + 2.35 / 10 ^ 4 + 1)).
  assert (Q2 : q * q = 1 ^ 2 + 2.35 / 10 ^ 4) by (apply sqrt_sqrt; lra).
  assert (R2 : r * r = 1 ^ 2 + 2.35 / 10 ^ 4 + 1) by (apply sqrt_sqrt; lra).
  assert (Q0 : 0 <= q) by apply sqrt_pos. assert (R0 : 0 < r) by (apply sqrt_lt_R0; lra).
  assert (1 < q) by nra. assert (r < 1.42) by nra.
  split.
  - apply Rmult_lt_reg_r with (q + 1); [lra|]. unfold Rdiv. rewrite Rmult_assoc, Rinv_l by lra. lra.
  - apply Rmult_lt_reg_r with r; [lra|]. unfold Rdiv. rewrite Rmult_assoc, Rinv_l by lra. lra.
Qed.

Lemma sin_le x : 0 <= x -> sin x <= x.
Proof.
  intros [H | <-]; [left; apply sin_lt_x, H | rewrite sin_0; lra].
Qed.

Lemma atan_le x : 0 <= x -> atan x <= x.
Proof.
  intros [H | <-]; [| rewrite atan_0; lra].
  destruct (MVT_cor2 atan (fun y => / (1 + y ^ 2)) 0 x H) as (c & E & Hc).
  - intros c _. apply derivable_pt_lim_atan.
  - rewrite atan_0 in E.
    assert (/ (1 + c ^ 2) <= 1) by (rewrite <- Rinv_1 at 2; apply Rinv_le_contravar; nra). nra.
Qed.

(* large aperture: the radicand of the antenna averaging factor is negative *)
Lemma g2_negative x : 47 <= x ->
  3.86 * Rpower (x ^ 2 + 1) (11/12) * sin (11/6 * atan (1 / x)) - 7.08 * Rpower x (5/6) < 0.
Proof.
  intros H. assert (I : 0 < / x) by (apply Rinv_0_lt_compat; lra).
  assert (A : sin (11/6 * atan (1 / x)) <= 11/6 * (1 / x)).
  { apply Rle_trans with (11/6 * atan (1 / x)).
    - apply sin_le. apply Rmult_le_pos; [lra|]. left. rewrite <- atan_0. apply atan_increasing. unfold Rdiv; lra.
    - apply Rmult_le_compat_l; [lra|]. apply atan_le. unfold Rdiv; lra. }
  assert (B : Rpower (x ^ 2 + 1) (11/12) <= (1 + / x * / x) * (x * Rpower x (5/6))).
  { replace (x ^ 2 + 1) with (x ^ 2 * (1 + / x * / x)) by (field; lra).
    rewrite <- Rpower_mult_distr; [| nra | nra].
    replace (Rpower (x ^ 2) (11/12)) with (x * Rpower x (5/6)).
    - rewrite Rmult_comm. apply Rmult_le_compat_r; [apply Rmult_le_pos; [lra | left; apply Rpower_pos]|].
      rewrite <- (Rpower_1 (1 + / x * / x)) at 2 by nra. apply Rle_Rpower; [nra | lra].
    - rewrite <- (Rpower_1 x) at 1 by lra. rewrite <- Rpower_plus.
      replace (x ^ 2) with (Rpower x 2) by (replace 2 with (INR 2) by (cbn; lra); apply Rpower_pow; lra).
      rewrite Rpower_mult. f_equal. lra. }
  assert (P := Rpower_pos x (5/6)). assert (P2 := Rpower_pos (x ^ 2 + 1) (11/12)).
  set (p := Rpower x (5/6)) in *. set (q := Rpower (x ^ 2 + 1) (11/12)) in *.
  assert (C : 3.86 * q * sin (11/6 * atan (1 / x)) <= 3.86 * q * (11/6 * (1 / x))) by (apply Rmult_le_compat_l; lra).
  assert (D : q * / x <= (1 + / x * / x) * p).
  { apply Rle_trans with ((1 + / x * / x) * (x * p) * / x); [apply Rmult_le_compat_r; lra|].
    right. field. lra. }
  assert (J : / x <= / 47) by (apply Rinv_le_contravar; lra).
  assert (K : / x * / x <= / 47 * / 47) by (apply Rmult_le_compat; lra).
  replace (3.86 * q * (11 / 6 * (1 / x))) with (3.86 * (11/6) * (q * / x)) in C by (unfold Rdiv; ring).
  assert (F : (1 + / x * / x) * p <= (1 + / 47 * / 47) * p) by (apply Rmult_le_compat_r; lra).
  lra.
Qed.

Definition big_dish : weather := {| w_latitude := 0; w_lwc := 0; w_rain := 0; w_pressure := 1013; w_temperature := 293;
  w_vapor := 7; w_humidity := 50; w_diameter := 50; w_efficiency := 1 |}.

Lemma radicand_negative : scint_g2 big_dish 30 90 < 0.
Proof.
  unfold scint_g2. apply g2_negative. unfold scint_x, big_dish; cbn [w_efficiency w_diameter].
  rewrite sqrt_1. unfold scint_path_length, deg_2_rad.
  replace (90 * (PI / 180)) with (PI / 2) by field. rewrite sin_PI2.
  set (r := sqrt (1 ^ 2 + 2.35 / 10 ^ 4 + 1)).
  assert (R2 : r * r = 1 ^ 2 + 2.35 / 10 ^ 4 + 1) by (apply sqrt_sqrt; lra).
  assert (R0 : 0 < r) by (apply sqrt_lt_R0; lra). assert (1.41 < r) by nra.
  replace (1.22 * (1 * 50) ^ 2 * 30 / (2 * 1000 / r)) with (1.22 * (1 * 50) ^ 2 * 30 / (2 * 1000) * r) by (field; lra).
  lra.
Qed.

(* where the radicand is positive, so is the loss *)
Lemma tropo_pos w fc e : 6 * 10 ^ 9 <= fc -> 10 <= e <= 90 -> 0 < w_temperature w -> 0 <= w_humidity w ->
  0 < scint_g2 w (fc / 10 ^ 9) e -> 0 < pl_scint w fc e.
Proof.
  intros Hf He HT HH HG. unfold pl_scint. rewrite pow10_9.
  assert (F : 6 <= fc / 10 ^ 9).
  { apply Rmult_le_reg_r with (10 ^ 9); [lra|]. unfold Rdiv. rewrite Rmult_assoc, Rinv_l by lra. lra. }
  rewrite (proj2 (Rleb_true _ _) F). unfold scint_tropo. cbv zeta.
  apply Rabs_pos_lt. apply Rmult_integral_contrapositive_currified.
  - assert (L : log10 0.01 = -2).
    { replace 0.01 with (pow10 (-2)); [apply log10_pow10|].
      replace (-2) with (- (1 + 1)) by lra. rewrite pow10_opp, pow10_plus.
      unfold pow10. rewrite Rpower_1 by lra. lra. }
    rewrite L. lra.
  - apply Rgt_not_eq. apply Rdiv_lt_0_compat; [| apply Rpower_pos].
    apply Rmult_lt_0_compat; [apply Rmult_lt_0_compat; [| apply Rpower_pos] | apply sqrt_lt_R0, HG].
    apply Rplus_lt_le_0_compat; [lra|]. apply Rmult_le_pos; [| left; apply Rinv_0_lt_compat; lra].
    apply Rmult_le_pos; [| left; apply Rinv_0_lt_compat, pow_lt; lra].
    apply Rmult_le_pos; [lra|]. apply Rmult_le_pos; [lra | left; apply exp_pos].
Qed.

Lemma doppler_carrier h e fc : 0 <= h -> 0 <= fc -> -90 <= e <= 90 ->
  fc <= compute_stallite_doppler h e fc <= fc + satellite_speed h / speed_of_light * fc.
Proof.
  intros H1 H2 H3. assert (D := doppler_bound h e fc H1 H2 H3). unfold compute_stallite_doppler. lra.
Qed.

(* a small aperture, x = 1/64, gives a positive radicand *)
Lemma tropo_example : exists w, 0 < w_temperature w /\ 0 <= w_humidity w /\ 0 <= w_efficiency w /\ 0 < scint_g2 w 30 90.
Proof.
  set (L := scint_path_length 90).
  assert (LP : 0 < L).
  { unfold L, scint_path_length, deg_2_rad. replace (90 * (PI / 180)) with (PI / 2) by field. rewrite sin_PI2.
    apply Rdiv_lt_0_compat; [lra|]. apply sqrt_lt_R0. lra. }
  set (d := sqrt (/ 64 * L / (1.22 * 30))).
  assert (D2 : d * d = / 64 * L / (1.22 * 30)) by (apply sqrt_sqrt; left; apply Rdiv_lt_0_compat; lra).
  exists {| w_latitude := 0; w_lwc := 0; w_rain := 0; w_pressure := 1013; w_temperature := 293;
            w_vapor := 7; w_humidity := 50; w_diameter := d; w_efficiency := 1 |}.
  cbn [w_temperature w_humidity w_efficiency]. do 3 (split; [lra|]).
  unfold scint_g2.
  assert (X : scint_x {| w_latitude := 0; w_lwc := 0; w_rain := 0; w_pressure := 1013; w_temperature := 293;
            w_vapor := 7; w_humidity := 50; w_diameter := d; w_efficiency := 1 |} 30 90 = / 64).
  { unfold scint_x. cbn [w_efficiency w_diameter]. rewrite sqrt_1. fold L.
    replace (1.22 * (1 * d) ^ 2 * 30) with (1.22 * 30 * (d * d)) by ring. rewrite D2. field. lra. }
  rewrite X.
  assert (Q : 1 <= Rpower ((/ 64) ^ 2 + 1) (11 / 12)).
  { replace 1 with (Rpower ((/ 64) ^ 2 + 1) 0) at 1 by (apply Rpower_O; lra). apply Rle_Rpower; lra. }
  assert (E : Rpower (/ 64) (5 / 6) = / 32).
  { replace (/ 64) with (Rpower 2 (-6)).
    - rewrite Rpower_mult. replace (-6 * (5 / 6)) with (- INR 5) by (cbn; lra).
      rewrite Rpower_Ropp, Rpower_pow by lra. lra.
    - replace (-6) with (- INR 6) by (cbn; lra). rewrite Rpower_Ropp, Rpower_pow by lra. lra. }
  rewrite E. replace (1 / / 64) with 64 by field.
  assert (A : PI / 2 - / 64 <= atan 64 < PI / 2).
  { split; [| apply atan_bound].
    replace 64 with (/ / 64) at 2 by field. rewrite atan_inv by lra.
    assert (T := atan_le (/ 64)). lra. }
  assert (P := PI_4). assert (P0 := PI2_3_2).
  assert (S : / 5 <= sin (11 / 6 * atan 64)).
  { replace (11 / 6 * atan 64) with (PI - (PI - 11 / 6 * atan 64)) by ring. rewrite sin_PI_x.
    set (y := PI - 11 / 6 * atan 64).
    assert (Y : / 4 <= y <= 2 / 5) by (unfold y; lra).
    destruct (pre_sin_bound y 0 ltac:(lra) ltac:(lra)) as [B _].
    unfold sin_approx, sin_term in B. cbn [sum_f_R0 Nat.mul Nat.add fact pow INR] in B.
    apply Rle_trans with (y - y * y * y / 6).
    - assert (y * y <= 4 / 25) by nra. nra.
    - eapply Rle_trans; [| exact B]. right. field. }
  nra.
Qed.
