(* Property C82: the coefficient of one ray between two antennas. *)
From Coq Require Import Reals String List Bool Arith Lia Lra.
From Verif Require Import M_Base L_Base M_Params M_Geometry M_Pathloss M_Scenario M_Rays M_Antenna L_Trig M_Cplx M_Coeff
  S_Coeff S_Ray L_Rotation L_Coeff L_Ray.
Import ListNotations.
Open Scope string_scope.
Open Scope list_scope.
Open Scope R_scope.

(* C82: off the vertical axis of its array every antenna has exactly one field, that of its element carried along by the rotation. *)
Theorem C82_field :
  forall j1 p a k o theta phi,
  make_array j1 p = Ok a -> (k < pa_num_ant a)%nat ->
  (off_axis o theta phi <-> exists F, radiates a k o theta phi F) /\
  (forall F G, radiates a k o theta phi F -> radiates a k o theta phi G -> F = G).
Proof. exact C82_field_l. Qed.
Print Assumptions C82_field.

(* C82: a scattered ray is power, polarisation, Faraday rotation, both array phases and Doppler rotation multiplied (TR 38.901 7.5-22). *)
Theorem C82_scattered_ray :
  forall j1 prx ptx g T y time ph c r u s t Frx Ftx Ftx' f,
  make_array j1 prx = Ok (cg_rx g) -> make_array j1 ptx = Ok (cg_tx g) ->
  (u < pa_num_ant (cg_rx g))%nat -> (s < pa_num_ant (cg_tx g))%nat -> 0 < cg_fc g ->
  let zoa := r_zoa y c r in let aoa := r_aoa y c r in let zod := r_zod y c r in let aod := r_aod y c r in
  radiates (cg_rx g) u (lt_rx_ori T) zoa aoa Frx -> radiates (cg_tx g) s (lt_tx_ori T) zod aod Ftx ->
  through_ionosphere (cg_fc g) (lt_bs_height T) Ftx Ftx' -> shift g T zoa aoa zod aod f ->
  let cross_phase k := cmul (creal (sqrt (1 / r_xpr y c r))) (cexpi (ph c r k)) in
  nlos_ray g T y time ph c r u s t =
    cmul (creal (sqrt (nth c (r_powers y) 0 / 20)))
   (cmul (polarised Frx (cexpi (ph c r 0%nat)) (cross_phase 1%nat) (cross_phase 2%nat) (cexpi (ph c r 3%nat)) Ftx')
   (cmul (steering (cg_fc g) (lt_rx_ori T) (pa_pos (cg_rx g) u) zoa aoa)
   (cmul (steering (cg_fc g) (lt_tx_ori T) (pa_pos (cg_tx g) s) zod aod)
         (cexpi (2 * PI * f * time t))))).
Proof. exact C82_scattered_l. Qed.
Print Assumptions C82_scattered_ray.

(* C82: the direct ray (TR 38.901 7.5-29; the sign of the distance phase is the subject of C64). *)
Theorem C82_direct_ray :
  forall j1 prx ptx g T time u s t Frx Ftx Ftx' f,
  make_array j1 prx = Ok (cg_rx g) -> make_array j1 ptx = Ok (cg_tx g) ->
  (u < pa_num_ant (cg_rx g))%nat -> (s < pa_num_ant (cg_tx g))%nat -> 0 < cg_fc g ->
  radiates (cg_rx g) u (lt_rx_ori T) (lt_zoa T) (lt_aoa T) Frx -> radiates (cg_tx g) s (lt_tx_ori T) (lt_zod T) (lt_aod T) Ftx ->
  through_ionosphere (cg_fc g) (lt_bs_height T) Ftx Ftx' -> shift g T (lt_zoa T) (lt_aoa T) (lt_zod T) (lt_aod T) f ->
  los_ray g T time u s t =
    cmul (creal (fst Frx * fst Ftx' - snd Frx * snd Ftx'))
   (cmul (steering (cg_fc g) (lt_rx_ori T) (pa_pos (cg_rx g) u) (lt_zoa T) (lt_aoa T))
   (cmul (steering (cg_fc g) (lt_tx_ori T) (pa_pos (cg_tx g) s) (lt_zod T) (lt_aod T))
   (cmul (cexpi (2 * PI * f * time t))
         (cexpi (2 * PI * (lt_d3d T / (299792458 / cg_fc g))))))).
Proof. exact C82_direct_l. Qed.
Print Assumptions C82_direct_ray.

(* Non-vacuity: a crossed pair of antennas looking at each other.  The hypotheses of the direct ray are met; the
   co-polar pair receives nothing (the azimuth axis is mirrored between the two ends), the other pair everything. *)
Example ray_example (j1 : R -> R) : exists g T, forall time t,
  cnorm2 (los_ray g T time 0%nat 0%nat t) = 0 /\ cnorm2 (los_ray g T time 0%nat 1%nat t) = 1.
Proof.
  destruct (crossed_pair j1 2e9) as (a & H & N & R0 & R1).
  exists {| cg_fc := 2e9; cg_tx := a; cg_rx := a; cg_sub := true |},
    {| lt_vel := V3 1 2 3; lt_moving_rx := true; lt_aoa := 0; lt_aod := 0; lt_zoa := PI / 2; lt_zod := PI / 2; lt_los := true;
       lt_d3d := 500000; lt_tx_ori := V3 0 0 0; lt_rx_ori := V3 0 0 0; lt_bs_height := 500000; lt_doppler := true;
       lt_sat_speed := 100 |}.
  intros time t.
  set (g := {| cg_fc := 2e9 |}). set (T := {| lt_vel := V3 1 2 3 |}).
  assert (I : forall F, through_ionosphere (cg_fc g) (lt_bs_height T) F F)
    by (intros F; split; [cbn; intros; lra|reflexivity]).
  assert (S : shift g T (lt_zoa T) (lt_aoa T) (lt_zod T) (lt_aod T)
    ((vdot (rho_hat (lt_zoa T) (lt_aoa T)) (lt_vel T) + 0) / (299792458 / cg_fc g))).
  { exists (vdot (rho_hat (lt_zoa T) (lt_aoa T)) (lt_vel T)), 0. split; [reflexivity|]. split; [reflexivity|].
    split; [discriminate|]. split; [cbn; intros; lra|reflexivity]. }
  assert (P : 0 < cg_fc g) by (cbn; lra).
  assert (U : (0 < pa_num_ant (cg_rx g))%nat) by (cbn; lia).
  assert (U1 : (1 < pa_num_ant (cg_tx g))%nat) by (cbn; lia).
  assert (Q : cos (PI / 4) * cos (PI / 4) + sin (PI / 4) * sin (PI / 4) = 1) by (pose proof (sin2_cos2 (PI / 4)) as Q; unfold Rsqr in Q; lra).
  pose proof cos_PI4 as C4. pose proof sin_PI4 as S4.
  rewrite (C82_direct_l _ _ _ g T time 0 0 t _ _ _ _ H H U U P R0 R0 (I _) S), (C82_direct_l _ _ _ g T time 0 1 t _ _ _ _ H H U U1 P R0 R1 (I _) S).
  unfold steering. rewrite !cnorm2_mul, !cexpi_norm, !cnorm2_real. cbn [fst snd].
  split; [|nra]. rewrite C4, S4. ring.
Qed.
