(* Properties of the channel coefficients: C28-C30, C34-C38, C64-C66. *)
From Coq Require Import Reals String List Bool Arith Lia Lra Permutation Sorting.Sorted.
From Verif Require Import M_Base L_Base M_Params M_Geometry M_Pathloss M_Scenario M_Rays M_Antenna L_Trig M_Cplx M_Coeff S_Coeff
  L_Rotation L_Coeff L_Recip.
Import ListNotations.
Open Scope string_scope.
Open Scope list_scope.
Open Scope R_scope.

(* C28: n clusters give n+4 paths that partition the rays; the sum over paths is unchanged by sub-clustering. *)
Theorem C28_ray_partition :
  forall srt srtd g T k y fs c_ds ph,
  valid_argsort srt -> valid_argsort_desc srtd ->
  cg_sub g = true -> lt_los T = false ->
  length (r_powers y) = length (r_delays y) -> (2 <= length (r_delays y))%nat ->
  let '(h, d) := cir srt srtd g T k y fs c_ds ph in
  let n := length (r_delays y) in
  let ray := nlos_ray g T y (fun i => INR i / fs) ph in
  length h = (n + 4)%nat /\ length d = (n + 4)%nat /\
  (exists L, Permutation (flat_map rays_of L) (list_prod (seq 0 n) (seq 0 20)) /\
     h = map (fun p u s t => csum (map (fun r => ray (pt_cluster p) r u s t) (pt_rays p))) L /\
     (forall p, In p L -> In (length (pt_rays p)) [10; 6; 4; 20]%nat)) /\
  forall u s t, csum (map (fun hk => hk u s t) h) = total n 20 (fun c r => ray c r u s t) /\
    csum (map (fun hk => hk u s t) h) =
    csum (map (fun hk => hk u s t) (fst (cir srt srtd (without_subclusters g) T k y fs c_ds ph))).
Proof. exact C28_l. Qed.
Print Assumptions C28_ray_partition.

(* C29: paths are sorted by delay, paired with their rays, and the strongest two clusters split with the documented offsets. *)
Theorem C29_sorted_paths :
  forall srt srtd g T k y fs c_ds ph,
  valid_argsort srt -> valid_argsort_desc srtd ->
  cg_sub g = true -> lt_los T = false ->
  length (r_powers y) = length (r_delays y) -> (2 <= length (r_delays y))%nat ->
  let '(h, d) := cir srt srtd g T k y fs c_ds ph in
  let n := length (r_delays y) in
  let ray := nlos_ray g T y (fun i => INR i / fs) ph in
  exists L c1 c2,
    two_strongest (r_powers y) c1 c2 /\
    Permutation L (split_cluster c1 ++ split_cluster c2 ++
      map whole_cluster (filter (fun c => negb (Nat.eqb c c1) && negb (Nat.eqb c c2)) (seq 0 n))) /\
    h = map (fun p u s t => csum (map (fun r => ray (pt_cluster p) r u s t) (pt_rays p))) L /\
    d = map (fun p => nth (pt_cluster p) (r_delays y) 0 + pt_offset p * c_ds) L /\
    StronglySorted Rle d.
Proof. exact C29_l. Qed.
Print Assumptions C29_sorted_paths.

(* C30: relation between a LoS link and the same link without the direct ray (C82 describes the direct ray). *)
Theorem C30_ricean_split :
  forall srt srtd g T fs k y c_ds ph,
  lt_los T = true -> 0 < k ->
  let direct := los_ray g T (fun i => INR i / fs) in
  let '(h, d) := cir srt srtd g T k y fs c_ds ph in
  let '(h0, d0) := cir srt srtd g (with_los false T) k y fs c_ds ph in
  d = d0 /\ length h = length h0 /\
  exists a b, sq a = k / (k + 1) /\ sq b = 1 / (k + 1) /\ sq a + sq b = 1 /\ 0 < a /\ 0 < b /\
  forall i u s t, (i < length h0)%nat ->
    nth i h (fun _ _ _ => c0) u s t =
    cadd (cmul (nth i h0 (fun _ _ _ => c0) u s t) (creal b))
         (if Nat.eqb i 0 then cmul (direct u s t) (creal a) else c0).
Proof. exact C30_l. Qed.
Print Assumptions C30_ricean_split.

(* C34: every scattered ray rotates at one frequency with constant modulus; the frequency is bounded. *)
Theorem C34_ray_doppler :
  forall g T y ph c r,
  0 < cg_fc g ->
  exists f,
    (forall time u s t, rotates_at f (nlos_ray g T y (fun _ => 0) ph c r u s t) (time t) (nlos_ray g T y time ph c r u s t)) /\
    (forall time u s t, cnorm2 (nlos_ray g T y time ph c r u s t) = cnorm2 (nlos_ray g T y (fun _ => 0) ph c r u s t)) /\
    f = vdot (if lt_moving_rx T then rho_hat (r_zoa y c r) (r_aoa y c r) else rho_hat (r_zod y c r) (r_aod y c r)) (lt_vel T)
          / (speed_of_light / cg_fc g)
        + (if Rleb 600000 (lt_bs_height T) && lt_doppler T then lt_sat_speed T / (speed_of_light / cg_fc g) else 0) /\
    Rabs f <= vnorm (lt_vel T) / (speed_of_light / cg_fc g) +
      (if Rleb 600000 (lt_bs_height T) && lt_doppler T then Rabs (lt_sat_speed T) / (speed_of_light / cg_fc g) else 0).
Proof. exact C34_ray_l. Qed.
Print Assumptions C34_ray_doppler.

(* C34: the same for the direct ray. *)
Theorem C34_los_doppler :
  forall g T,
  0 < cg_fc g ->
  exists f,
    (forall time u s t, rotates_at f (los_ray g T (fun _ => 0) u s t) (time t) (los_ray g T time u s t)) /\
    f = vdot (if lt_moving_rx T then rho_hat (lt_zoa T) (lt_aoa T) else rho_hat (lt_zod T) (lt_aod T)) (lt_vel T)
          / (speed_of_light / cg_fc g)
        + (if Rleb 600000 (lt_bs_height T) && lt_doppler T then lt_sat_speed T / (speed_of_light / cg_fc g) else 0) /\
    Rabs f <= vnorm (lt_vel T) / (speed_of_light / cg_fc g) +
      (if Rleb 600000 (lt_bs_height T) && lt_doppler T then Rabs (lt_sat_speed T) / (speed_of_light / cg_fc g) else 0).
Proof. exact C34_los_l. Qed.
Print Assumptions C34_los_doppler.

(* C34: laws of the rotating phasor. *)
Theorem C34_phasor :
  forall f,
  cexpi (2 * PI * f * 0) = c1 /\ (forall t, cexpi (2 * PI * 0 * t) = c1) /\
  (forall t, cnorm2 (cexpi (2 * PI * f * t)) = 1) /\
  (forall t1 t2, cexpi (2 * PI * f * (t1 + t2)) = cmul (cexpi (2 * PI * f * t1)) (cexpi (2 * PI * f * t2))).
Proof. exact C34_phasor_l. Qed.
Print Assumptions C34_phasor.

(* C34: the satellite term never exceeds the orbital speed. *)
Theorem C34_satellite_speed :
  forall h e w,
  Rabs (topology_sat_speed h e w) <= satellite_speed h.
Proof. exact sat_speed_bound. Qed.
Print Assumptions C34_satellite_speed.

(* C35: the Faraday matrix is a rotation by 108/f_GHz^2 degrees and keeps power. *)
Theorem C35_faraday_matrix :
  forall fc,
  let F := faraday_rotation fc in
  (exists a, a = 108 / sq (fc / 1e9) /\
     F = CM (creal (cos (a / 180 * PI))) (creal (- sin (a / 180 * PI))) (creal (sin (a / 180 * PI))) (creal (cos (a / 180 * PI)))) /\
  csub (cmul (m00 F) (m11 F)) (cmul (m01 F) (m10 F)) = c1 /\
  (forall v, cnorm2 (v0 (cmat_vec F v)) + cnorm2 (v1 (cmat_vec F v)) = cnorm2 (v0 v) + cnorm2 (v1 v)).
Proof. exact C35_matrix_l. Qed.
Print Assumptions C35_faraday_matrix.

(* C35: the transmit field is rotated exactly when the satellite is at or above 600 km. *)
Theorem C35_faraday_applied :
  forall g T y time ph c r u s t,
  let a := 108 / sq (cg_fc g / 1e9) / 180 * PI in
  let tx zod aod :=
    let f := antenna_field (cg_tx g) (lt_tx_ori T) zod aod s in
    if Rleb 600000 (lt_bs_height T)
    then (cos a * fst f - sin a * snd f, sin a * fst f + cos a * snd f) else f in
  let rx zoa aoa := antenna_field (cg_rx g) (lt_rx_ori T) zoa aoa u in
  let through m zoa aoa zod aod :=
    cadd (cmul (creal (fst (rx zoa aoa))) (cadd (cmul (m00 m) (creal (fst (tx zod aod)))) (cmul (m01 m) (creal (snd (tx zod aod))))))
         (cmul (creal (snd (rx zoa aoa))) (cadd (cmul (m10 m) (creal (fst (tx zod aod)))) (cmul (m11 m) (creal (snd (tx zod aod)))))) in
  (exists k, cnorm2 k = cnorm2 (creal (sqrt (nth c (r_powers y) 0 / 20))) /\
    nlos_ray g T y time ph c r u s t =
    cmul k (through (phase_matrix (r_xpr y c r) (ph c r)) (r_zoa y c r) (r_aoa y c r) (r_zod y c r) (r_aod y c r))) /\
  (exists k, cnorm2 k = 1 /\
    los_ray g T time u s t = cmul k (through (CM c1 c0 c0 (creal (- (1)))) (lt_zoa T) (lt_aoa T) (lt_zod T) (lt_aod T))).
Proof. exact C35_applied_l. Qed.
Print Assumptions C35_faraday_applied.

(* C36: orientations act as rigid rotations. *)
Theorem C36_rotation :
  forall o,
  is_rotation (rot_pos o) /\
  (forall v, rot_pos o v = rot_z (vx o) (rot_y (vy o) (rot_x (vz o) v))) /\
  (forall v, mat3_vec (reverse_rotation_matrix o) (rot_pos o v) = v) /\
  (forall v, rot_pos o (mat3_vec (reverse_rotation_matrix o) v) = v).
Proof. exact C36_rotation_l. Qed.
Print Assumptions C36_rotation.

(* C36: local angles describe the rotated direction. *)
Theorem C36_local_angles :
  forall o theta phi theta' phi',
  gcs_to_lcs o theta phi = (theta', phi') ->
  rot_pos o (rho_hat theta' phi') = rho_hat theta phi /\ 0 <= theta' <= PI /\ - PI < phi' <= PI.
Proof. exact C36_local_angles_l. Qed.
Print Assumptions C36_local_angles.

(* C37: the polarisation rotation keeps field power. *)
Theorem C37_field_power :
  forall f o theta phi,
  fst (l2g_response f o theta phi) * fst (l2g_response f o theta phi) +
  snd (l2g_response f o theta phi) * snd (l2g_response f o theta phi) = fst f * fst f + snd f * snd f.
Proof. exact C37_l. Qed.
Print Assumptions C37_field_power.

(* C38: moduli of the phase matrix. *)
Theorem C38_phase_matrix :
  forall x ph,
  0 < x ->
  cnorm2 (m00 (phase_matrix x ph)) = 1 /\ cnorm2 (m11 (phase_matrix x ph)) = 1 /\
  cnorm2 (m01 (phase_matrix x ph)) = / x /\ cnorm2 (m10 (phase_matrix x ph)) = / x.
Proof. exact C38_l. Qed.
Print Assumptions C38_phase_matrix.

(* C64 fails: the direct ray's phase advances with distance instead of lagging. *)
Theorem C64_los_phase_refuted :
  forall g T u s,
  0 < cg_fc g -> cnorm2 (los_ray g (with_distance 0 T) (fun _ => 0) u s 0%nat) <> 0 ->
  ~ (forall d, 0 <= d -> los_ray g (with_distance d T) (fun _ => 0) u s 0%nat =
       cmul (los_ray g (with_distance 0 T) (fun _ => 0) u s 0%nat) (cexpi (- (2 * PI * d / (speed_of_light / cg_fc g))))).
Proof. exact C64_l. Qed.
Print Assumptions C64_los_phase_refuted.

(* C64: what holds instead: d' further apart, the phase advances by d' in wavelengths, at every time. *)
Theorem C64_phase_advances :
  forall g T d d' time u s t,
  los_ray g (with_distance (d + d') T) time u s t =
  cmul (los_ray g (with_distance d T) time u s t) (cexpi (2 * PI * d' / (speed_of_light / cg_fc g))).
Proof. exact C64_advance_l. Qed.
Print Assumptions C64_phase_advances.

(* C65: the transformed field is the physically rotated local field. *)
Theorem C65_field_transformation :
  forall o theta phi theta' phi' f,
  gcs_to_lcs o theta phi = (theta', phi') -> sin theta' <> 0 ->
  field_vector (l2g_response f o theta phi) theta phi = rot_pos o (field_vector f theta' phi').
Proof. exact C65_l. Qed.
Print Assumptions C65_field_transformation.

(* C66 below 600 km: exchanging the link ends leaves every ray unchanged. *)
Theorem C66_reciprocity_partial :
  forall g T y time ph c r u s t,
  lt_bs_height T < 600000 ->
  nlos_ray (swap_gen g) (swap_topo T) (swap_rays y) time (swap_phases ph) c r s u t = nlos_ray g T y time ph c r u s t /\
  los_ray (swap_gen g) (swap_topo T) time s u t = los_ray g T time u s t.
Proof. exact C66_l. Qed.
Print Assumptions C66_reciprocity_partial.

(* C66 at every height: the direct ray is reciprocal, Faraday rotation included. *)
Theorem C66_direct_ray_reciprocity :
  forall g T time u s t,
  los_ray (swap_gen g) (swap_topo T) time s u t = los_ray g T time u s t.
Proof. exact los_reciprocal. Qed.
Print Assumptions C66_direct_ray_reciprocity.

(* C66, refuted from 600 km on for scattered rays: the rotation is applied on the transmit side only. *)
Theorem C66_scattered_ray_refuted :
  exists g T y time ph c r u s t,
  600000 <= lt_bs_height T /\
  nlos_ray (swap_gen g) (swap_topo T) (swap_rays y) time (swap_phases ph) c r s u t <> nlos_ray g T y time ph c r u s t.
Proof. exact nlos_not_reciprocal. Qed.
Print Assumptions C66_scattered_ray_refuted.

(* Non-vacuity: a reachable link (vertical omni antennas, satellite at 600 km) meets the hypotheses of
   C28, C29 and C30, its two strongest clusters are 1 and 2, and its direct ray is not zero. *)
Example coeff_example :
  valid_argsort argsort /\ valid_argsort_desc argsort_desc /\
  cg_sub ex_gen = true /\ lt_los ex_topo = true /\ lt_los (with_los false ex_topo) = false /\
  length (r_powers ex_rays) = length (r_delays ex_rays) /\ (2 <= length (r_delays ex_rays))%nat /\
  two_strongest (r_powers ex_rays) 1 2 /\ 0 < cg_fc ex_gen /\
  cnorm2 (los_ray ex_gen (with_distance 0 ex_topo) (fun _ => 0) 0%nat 0%nat 0%nat) <> 0.
Proof.
  split; [exact argsort_valid|]. split; [exact argsort_desc_valid|].
  do 4 (split; [reflexivity|]). split; [cbn; lia|]. split.
  - unfold two_strongest. cbn [ex_rays r_powers length]. do 3 (split; [lia|]).
    intros c H H1 H2. assert (c = 0%nat) by lia. subst c. cbn. lra.
  - split; [cbn; lra|]. apply ex_los_nonzero.
Qed.

(* a satellite below 600 km (for C66) and a direction off the antenna axis (for C65) *)
Example coeff_example_low : lt_bs_height
    {| lt_vel := V3 1 2 3; lt_moving_rx := true; lt_aoa := 0; lt_aod := 0; lt_zoa := PI / 2; lt_zod := PI / 2; lt_los := true;
       lt_d3d := 20000; lt_tx_ori := V3 0 0 0; lt_rx_ori := V3 0 0 0; lt_bs_height := 20000; lt_doppler := true;
       lt_sat_speed := 100 |} < 600000 /\
  sin (fst (gcs_to_lcs (V3 0 0 0) (PI / 2) 0)) <> 0.
Proof.
  split; [cbn; lra|]. destruct (gcs_to_lcs (V3 0 0 0) (PI / 2) 0) as [a b] eqn:E. cbn [fst].
  destruct (C36_local_angles_l _ _ _ _ _ E) as (K & _).
  unfold rho_hat, rot_pos, mat3_vec, forward_rotation_matrix, vdot in K. cbn [row1 row2 row3 vx vy vz] in K.
  rewrite sin_0, cos_0, sin_PI2, cos_PI2 in K. injection K as K1 K2 K3.
  intros Z. rewrite Z in K1. lra.
Qed.
