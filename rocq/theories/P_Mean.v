(* Property C83: means and correlations of the channel coefficients over the random initial phases. *)
From Coq Require Import Reals String List Bool Arith Lia Lra Permutation.
From Verif Require Import M_Base L_Base M_Params M_Geometry M_Pathloss M_Scenario M_Rays L_RaysEx M_Antenna L_Trig M_Cplx M_Coeff
  S_Coeff S_Ray L_Rotation L_Coeff L_Ray S_Mean L_Mean.
Import ListNotations.
Open Scope string_scope.
Open Scope list_scope.
Open Scope R_scope.

(* C83: paths have the direct ray as mean, different paths are uncorrelated, and the correlation of two antenna pairs at two times within one path is the sum over its rays of power, polarisation, array and Doppler factors. *)
Theorem C83_moments :
  forall srt srtd j1 prx ptx g T K y fs c_ds F E,
  let n := length (r_delays y) in
  valid_argsort srt -> valid_argsort_desc srtd ->
  make_array j1 prx = Ok (cg_rx g) -> make_array j1 ptx = Ok (cg_tx g) -> 0 < cg_fc g -> 0 < K ->
  length (r_powers y) = n -> (2 <= n)%nat ->
  (forall c, (c < n)%nat -> 0 <= nth c (r_powers y) 0) -> (forall c r, (c < n)%nat -> (r < 20)%nat -> 0 < r_xpr y c r) ->
  fields_of g T y n F -> uniform_phases n E ->
  let h ph i := nth i (fst (cir srt srtd g T K y fs c_ds ph)) (fun _ _ _ => c0) in
  let direct := los_ray g T (fun t => INR t / fs) in
  let mean i u s t := if lt_los T && Nat.eqb i 0 then cmul (creal (sqrt (K / (K + 1)))) (direct u s t) else c0 in
  exists L : list path,
    Permutation (flat_map rays_of L) (list_prod (seq 0 n) (seq 0 20)) /\
    length L = (n + if cg_sub g then 4 else 0)%nat /\
    (forall ph, snd (cir srt srtd g T K y fs c_ds ph) = map (fun p => nth (pt_cluster p) (r_delays y) 0 + pt_offset p * c_ds) L /\
                length (fst (cir srt srtd g T K y fs c_ds ph)) = length L) /\
    forall i j u s t u' s' t', (i < length L)%nat -> (j < length L)%nat ->
      (u < pa_num_ant (cg_rx g))%nat -> (s < pa_num_ant (cg_tx g))%nat -> (u' < pa_num_ant (cg_rx g))%nat -> (s' < pa_num_ant (cg_tx g))%nat ->
      E (fun ph => h ph i u s t) = mean i u s t /\
      mean_product E (fun ph => h ph i u s t) (fun ph => h ph j u' s' t') =
        cadd (cmul (mean i u s t) (cconj (mean j u' s' t')))
          (if Nat.eqb i j
           then cmul (creal (if lt_los T then 1 / (K + 1) else 1))
                  (csum (map (fun cr => ray_correlation g T y F (At u s (INR t / fs)) (At u' s' (INR t' / fs)) (fst cr) (snd cr))
                             (rays_of (nth i L (whole_cluster 0)))))
           else c0).
Proof. exact C83_moments_l. Qed.
Print Assumptions C83_moments.

(* C83: mean total power of an antenna pair: the Ricean mixture of direct power and cluster powers weighted with the fields. *)
Theorem C83_mean_power :
  forall srt srtd j1 prx ptx g T K y fs c_ds F E u s t,
  let n := length (r_delays y) in
  valid_argsort srt -> valid_argsort_desc srtd ->
  make_array j1 prx = Ok (cg_rx g) -> make_array j1 ptx = Ok (cg_tx g) -> 0 < cg_fc g -> 0 < K ->
  length (r_powers y) = n -> (2 <= n)%nat ->
  (forall c, (c < n)%nat -> 0 <= nth c (r_powers y) 0) -> (forall c r, (c < n)%nat -> (r < 20)%nat -> 0 < r_xpr y c r) ->
  fields_of g T y n F -> uniform_phases n E ->
  (u < pa_num_ant (cg_rx g))%nat -> (s < pa_num_ant (cg_tx g))%nat ->
  let scattered := Rsum (map (fun cr => nth (fst cr) (r_powers y) 0 / 20 *
      polarised_power (r_xpr y (fst cr) (snd cr)) (lf_rx F (fst cr) (snd cr) u) (lf_rx F (fst cr) (snd cr) u)
                      (lf_tx F (fst cr) (snd cr) s) (lf_tx F (fst cr) (snd cr) s)) (list_prod (seq 0 n) (seq 0 20))) in
  let direct := cnorm2 (los_ray g T (fun t => INR t / fs) u s t) in
  E (fun ph => creal (Rsum (map (fun h : coeff => cnorm2 (h u s t)) (fst (cir srt srtd g T K y fs c_ds ph))))) =
  creal (if lt_los T then K / (K + 1) * direct + 1 / (K + 1) * scattered else scattered).
Proof. exact C83_power_l. Qed.
Print Assumptions C83_mean_power.

(* Non-vacuity: the hypotheses hold for a pair of crossed antennas, two clusters with XPR 10; an antenna pair receives
   on average 1/2 of the power co-polar and 1/20 cross-polar. *)
Example mean_example (j1 : R -> R) (srt srtd : list R -> list nat) (fs : R) :
  valid_argsort srt -> valid_argsort_desc srtd ->
  exists g T y E, uniform_phases 2 E /\
  E (fun ph => creal (Rsum (map (fun h : coeff => cnorm2 (h 0%nat 0%nat 5%nat)) (fst (cir srt srtd g T 1 y fs 1e-9 ph))))) = creal 0.55.
Proof.
  intros V VD. destruct (crossed_pair j1 2e9) as (a & H & N & R0 & R1).
  pose (g := {| cg_fc := 2e9; cg_tx := a; cg_rx := a; cg_sub := true |}).
  pose (T := {| lt_vel := V3 1 2 3; lt_moving_rx := true; lt_aoa := 0; lt_aod := 0; lt_zoa := PI / 2; lt_zod := PI / 2; lt_los := false;
       lt_d3d := 500000; lt_tx_ori := V3 0 0 0; lt_rx_ori := V3 0 0 0; lt_bs_height := 500000; lt_doppler := true;
       lt_sat_speed := 100 |}).
  pose (y := {| r_delays := [0; 1e-7]; r_powers := [0.7; 0.3]; r_aoa := fun _ _ => 0; r_aod := fun _ _ => 0;
       r_zoa := fun _ _ => PI / 2; r_zod := fun _ _ => PI / 2; r_xpr := fun _ _ => 10 |}).
  exists g, T, y, (phase_grid 2). split; [apply uniform_exists|].
  pose (F0 := (cos (PI / 4), - sin (PI / 4))). pose (F1 := (cos (PI / 4), sin (PI / 4))).
  assert (FO : fields_of g T y 2 (LF (fun _ _ u => if Nat.eqb u 0 then F0 else F1) (fun _ _ u => if Nat.eqb u 0 then F0 else F1)
     (fun _ _ => (vdot (rho_hat (PI / 2) 0) (V3 1 2 3) + 0) / (299792458 / 2e9)))).
  { constructor; cbn [lf_rx lf_tx lf_shift g T y cg_rx cg_tx cg_fc lt_rx_ori lt_tx_ori lt_bs_height r_zoa r_aoa r_zod r_aod].
    - intros c r u _ _ Hu. rewrite N in Hu. destruct u as [|[|u]]; [exact R0|exact R1|lia].
    - intros c r u _ _ Hu. rewrite N in Hu. exists (if Nat.eqb u 0 then F0 else F1).
      split; [destruct u as [|[|u]]; [exact R0|exact R1|lia]|]. split; [intros; lra|reflexivity].
    - intros c r _ _. exists (vdot (rho_hat (PI / 2) 0) (V3 1 2 3)), 0. split; [reflexivity|]. split; [reflexivity|].
      split; [discriminate|]. split; [cbn; intros; lra|reflexivity]. }
  rewrite (C83_power_l srt srtd j1 _ _ g T 1 y fs 1e-9 _ (phase_grid 2) 0 0 5 V VD H H ltac:(cbn; lra) ltac:(lra) eq_refl (le_n 2)
    ltac:(intros [|[|c]] Hc; [cbn; lra|cbn; lra|cbn in Hc; lia]) ltac:(intros; cbn; lra) FO (uniform_exists 2) ltac:(cbn; lia) ltac:(cbn; lia)).
  cbn [lt_los T]. f_equal. cbn [y r_delays length r_powers r_xpr lf_rx lf_tx Nat.eqb]. unfold F0, polarised_power. cbn [fst snd].
  assert (Q : forall x, cos (PI / 4) * cos (PI / 4) * x = 0.5 * x /\ - sin (PI / 4) * - sin (PI / 4) * x = 0.5 * x).
  { intros x. rewrite cos_PI4, sin_PI4. assert (W : 1 / sqrt 2 * (1 / sqrt 2) = 0.5).
    { pose proof (sqrt_sqrt 2 ltac:(lra)) as W. assert (0 < sqrt 2) by (apply sqrt_lt_R0; lra).
      apply Rmult_eq_reg_l with (sqrt 2 * sqrt 2); [|nra]. field_simplify; [lra|lra]. }
    split; [rewrite W; ring|]. transitivity (1 / sqrt 2 * (1 / sqrt 2) * x); [ring|rewrite W; ring]. }
  rewrite (map_ext _ (fun cr : nat * nat => nth (fst cr) [0.7; 0.3] 0 / 20 * 0.55)).
  - cbn. lra.
  - intros cr. f_equal. rewrite <- (Rmult_1_r (cos (PI / 4) * cos (PI / 4))), <- (Rmult_1_r (- sin (PI / 4) * - sin (PI / 4))).
    destruct (Q 1) as [-> ->]. lra.
Qed.
