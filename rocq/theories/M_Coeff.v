(* Channel coefficient generation for one link.  Models /repo/OpenNTN/channel_coefficients.py
   (Topology and ChannelCoefficientsGenerator) at one index (batch, TX, RX): every method below acts
   independently on the leading three axes, so its body is written for one link.  Remaining axes are
   arguments: cluster c, ray r, receive antenna u, transmit antenna s, time sample t.
   The debug output of __call__ is not modelled. *)
From Coq Require Import Reals String List Bool Arith ZArith.
From Verif Require Import M_Base M_Params M_Geometry M_Pathloss M_Scenario M_Rays M_Antenna M_Cplx.
Import ListNotations.
Open Scope string_scope.
Open Scope list_scope.
Open Scope R_scope.

(* ---- the generator, channel_coefficients.py:182-202 ---- *)
Record cgen := { cg_fc : R; cg_tx : panel_array; cg_rx : panel_array; cg_sub : bool }.
(* channel_coefficients.py:190 *)
Definition cg_lambda (g : cgen) : R := speed_of_light / cg_fc g.

(* channel_coefficients.py:198 *)
Definition sub_cl_1_ind : list nat := [0;1;2;3;4;5;6;7;18;19]%nat.
(* channel_coefficients.py:199 *)
Definition sub_cl_2_ind : list nat := [8;9;10;11;16;17]%nat.
(* channel_coefficients.py:200 *)
Definition sub_cl_3_ind : list nat := [12;13;14;15]%nat.
(* channel_coefficients.py:201-202 *)
Definition sub_cl_delay_offsets : list R := [0; 1.28; 2.56].

(* ---- the link's part of Topology, channel_coefficients.py:68-103; angles in radians ---- *)
Record ltopo := {
  lt_vel : vec3;                    (* velocity of the UT of the link *)
  lt_moving_rx : bool;              (* moving_end = 'rx' (true) or 'tx' (false) *)
  lt_aoa : R; lt_aod : R; lt_zoa : R; lt_zod : R;
  lt_los : bool; lt_d3d : R; lt_tx_ori : vec3; lt_rx_ori : vec3;
  lt_bs_height : R; lt_doppler : bool; lt_sat_speed : R }.

(* channel_coefficients.py:95-103; w: the uniform draw in [0, 2 pi) of the batch example *)
Definition topology_sat_speed (height elevation w : R) : R :=
  cos w * (cos (elevation * (PI / 180)) * satellite_speed height).

(* ---- geometry helpers ---- *)
(* channel_coefficients.py:227-248 *)
Definition unit_sphere_vector (theta phi : R) : vec3 :=
  V3 (sin theta * cos phi) (sin theta * sin phi) (cos theta).

(* 3 x 3 matrices as rows *)
(* channel_coefficients.py:250-279 *)
Record mat3 := M3 { row1 : vec3; row2 : vec3; row3 : vec3 }.
(* channel_coefficients.py:299 *)
Definition mat3_vec (m : mat3) (v : vec3) : vec3 := V3 (vdot (row1 m) v) (vdot (row2 m) v) (vdot (row3 m) v).
(* channel_coefficients.py:316 *)
Definition mat3_transpose (m : mat3) : mat3 :=
  M3 (V3 (vx (row1 m)) (vx (row2 m)) (vx (row3 m)))
     (V3 (vy (row1 m)) (vy (row2 m)) (vy (row3 m)))
     (V3 (vz (row1 m)) (vz (row2 m)) (vz (row3 m))).

(* channel_coefficients.py:250-279 *)
Definition forward_rotation_matrix (o : vec3) : mat3 :=
  let a := vx o in let b := vy o in let c := vz o in
  M3 (V3 (cos a * cos b) (cos a * sin b * sin c - sin a * cos c) (cos a * sin b * cos c + sin a * sin c))
     (V3 (sin a * cos b) (sin a * sin b * sin c + cos a * cos c) (sin a * sin b * cos c - cos a * sin c))
     (V3 (- sin b) (cos b * sin c) (cos b * cos c)).

(* channel_coefficients.py:281-299 *)
Definition rot_pos (o p : vec3) : vec3 := mat3_vec (forward_rotation_matrix o) p.

(* channel_coefficients.py:301-317 *)
Definition reverse_rotation_matrix (o : vec3) : mat3 := mat3_transpose (forward_rotation_matrix o).

(* channel_coefficients.py:319-363: (theta', phi') *)
Definition gcs_to_lcs (o : vec3) (theta phi : R) : R * R :=
  let rot_rho := mat3_vec (reverse_rotation_matrix o) (unit_sphere_vector theta phi) in
  let z := vdot (V3 0 0 1) rot_rho in
  let z := Rmin (Rmax z (- (1))) 1 in
  (acos z, atan2 (vy rot_rho) (vx rot_rho)).

(* channel_coefficients.py:365-394 *)
Definition psi_real (o : vec3) (theta phi : R) : R :=
  let a := vx o in let b := vy o in let c := vz o in
  sin c * cos theta * sin (phi - a) +
  cos c * (cos b * sin theta - sin b * cos theta * cos (phi - a)).
(* channel_coefficients.py:365-394 *)
Definition psi_imag (o : vec3) (theta phi : R) : R :=
  let a := vx o in let b := vy o in let c := vz o in
  sin c * cos (phi - a) + sin b * cos c * sin (phi - a).
(* channel_coefficients.py:393 *)
Definition compute_psi (o : vec3) (theta phi : R) : R := atan2 (psi_imag o theta phi) (psi_real o theta phi).

(* channel_coefficients.py:396-425 *)
Definition l2g_response (f : R * R) (o : vec3) (theta phi : R) : R * R :=
  let psi := compute_psi o theta phi in
  (cos psi * fst f + - sin psi * snd f, sin psi * fst f + cos psi * snd f).

(* ---- step 10 and the phase matrix, channel_coefficients.py:491-544; ph k: the four phases of the ray ---- *)
Definition phase_matrix (xpr : R) (ph : nat -> R) : cmat :=
  let s := creal (sqrt (1 / xpr)) in
  CM (cexpi (ph 0%nat)) (cmul s (cexpi (ph 1%nat)))
     (cmul s (cexpi (ph 2%nat))) (cexpi (ph 3%nat)).

(* channel_coefficients.py:1108-1119 *)
Definition faraday_angle (fc : R) : R :=
  let ghz := fc / 1e9 in 108 / (ghz * ghz) * (PI / 180).
(* channel_coefficients.py:1108-1119 *)
Definition faraday_rotation (fc : R) : cmat :=
  let psi := faraday_angle fc in
  CM (creal (cos psi)) (creal (- sin psi)) (creal (sin psi)) (creal (cos psi)).

(* the guards at channel_coefficients.py:875 and channel_coefficients.py:1023 *)
Definition with_faraday (g : cgen) (T : ltopo) (h_phase : cmat) : cmat :=
  if Rleb 600000 (lt_bs_height T) then cmat_mul h_phase (faraday_rotation (cg_fc g)) else h_phase.

(* ---- Doppler, channel_coefficients.py:546-634 ---- *)
Definition doppler_exponent (g : cgen) (T : ltopo) (aoa zoa aod zod t : R) : R :=
  let r_hat := if lt_moving_rx T then unit_sphere_vector zoa aoa else unit_sphere_vector zod aod in
  let e := 2 * PI / cg_lambda g * vdot r_hat (lt_vel T) * t in
  if Rleb 600000 (lt_bs_height T) && lt_doppler T
  then e + 2 * PI / cg_lambda g * lt_sat_speed T * t else e.
(* channel_coefficients.py:546-634 *)
Definition doppler (g : cgen) (T : ltopo) (aoa zoa aod zod t : R) : cplx :=
  cexpi (doppler_exponent g T aoa zoa aod zod t).

(* ---- array offsets, channel_coefficients.py:427-489 and channel_coefficients.py:636-718 ---- *)
Definition array_offset (g : cgen) (T : ltopo) (aoa aod zoa zod : R) (u s : nat) : cplx :=
  let d_rx := rot_pos (lt_rx_ori T) (pa_pos (cg_rx g) u) in
  let d_tx := rot_pos (lt_tx_ori T) (pa_pos (cg_tx g) s) in
  cmul (cexpi (2 * PI / cg_lambda g * vdot (unit_sphere_vector zoa aoa) d_rx))
       (cexpi (2 * PI / cg_lambda g * vdot (unit_sphere_vector zod aod) d_tx)).

(* ---- field matrix, channel_coefficients.py:720-845 ---- *)
(* global field of antenna k: polarisation 2 for the indices scattered from ant_ind_pol2 *)
(* channel_coefficients.py:720-837 *)
Definition antenna_field (a : panel_array) (o : vec3) (theta phi : R) (k : nat) : R * R :=
  let '(theta', phi') := gcs_to_lcs o theta phi in
  let f1 := l2g_response (field (pa_pol1 a) theta' phi') o theta phi in
  match pa_pol2 a with
  | None => f1
  | Some p2 =>
      if existsb (Nat.eqb k) (pa_ind2 a) then l2g_response (field p2 theta' phi') o theta phi else f1
  end.

(* channel_coefficients.py:815-837 *)
Definition cvec_of (f : R * R) : cvec := CV (creal (fst f)) (creal (snd f)).

(* channel_coefficients.py:838-845 *)
Definition field_entry (g : cgen) (T : ltopo) (aoa aod zoa zod : R) (h_phase : cmat) (u s : nat) : cplx :=
  let f_tx := cmat_vec h_phase (cvec_of (antenna_field (cg_tx g) (lt_tx_ori T) zod aod s)) in
  let f_rx := cvec_of (antenna_field (cg_rx g) (lt_rx_ori T) zoa aoa u) in
  cadd (cmul (v0 f_rx) (v0 f_tx)) (cmul (v1 f_rx) (v1 f_tx)).

(* ---- NLoS, channel_coefficients.py:847-896 ---- *)
Definition coeff := nat -> nat -> nat -> cplx.          (* rx antenna, tx antenna, time sample *)

(* channel_coefficients.py:847-896 *)
Definition nlos_ray (g : cgen) (T : ltopo) (y : rays) (time : nat -> R) (ph : nat -> nat -> nat -> R)
    (c r : nat) : coeff := fun u s t =>
  let h_phase := with_faraday g T (phase_matrix (r_xpr y c r) (ph c r)) in
  let aoa := r_aoa y c r in let aod := r_aod y c r in let zoa := r_zoa y c r in let zod := r_zod y c r in
  cmul (cmul (cmul (field_entry g T aoa aod zoa zod h_phase u s)
                   (array_offset g T aoa aod zoa zod u s))
             (doppler g T aoa zoa aod zod (time t)))
       (creal (sqrt (nth c (r_powers y) 0 / INR rays_per_cluster))).

(* ---- reduction over rays, channel_coefficients.py:898-985 ---- *)
Definition sum_rays (h : nat -> nat -> coeff) (ind : list nat) (c : nat) : coeff :=
  fun u s t => csum (map (fun r => h c r u s t) ind).

Section Reduce.
(* srt, srtd: tf.argsort ascending and descending *)
Context (srt srtd : list R -> list nat).

(* channel_coefficients.py:898-985 *)
Definition reduce_nlos (sub : bool) (h : nat -> nat -> coeff) (powers delays : list R) (c_ds : R)
  : list coeff * list R :=
  let '(h_nlos, d_nlos) :=
    if sub then
      let strongest := srtd powers in
      let delays_sorted := gather 0 delays strongest in
      let delays_strong := firstn 2 delays_sorted in
      let delays_weak := skipn 2 delays_sorted in
      let delays_sub := flat_map (fun o => map (fun d => d + o * c_ds) delays_strong) sub_cl_delay_offsets in
      let strong := firstn 2 strongest in
      let weak := skipn 2 strongest in
      (map (sum_rays h sub_cl_1_ind) strong ++ map (sum_rays h sub_cl_2_ind) strong
         ++ map (sum_rays h sub_cl_3_ind) strong ++ map (sum_rays h (seq 0 rays_per_cluster)) weak,
       delays_sub ++ delays_weak)
    else (map (sum_rays h (seq 0 rays_per_cluster)) (seq 0 (length delays)), delays) in
  let ind := srt d_nlos in
  (map (fun k => nth k h_nlos (fun _ _ _ => c0)) ind, gather 0 d_nlos ind).

(* ---- LoS, channel_coefficients.py:987-1051 ---- *)
Definition los_ray (g : cgen) (T : ltopo) (time : nat -> R) : coeff := fun u s t =>
  let h_phase := with_faraday g T (CM c1 c0 c0 (creal (- (1)))) in
  let aoa := lt_aoa T in let aod := lt_aod T in let zoa := lt_zoa T in let zod := lt_zod T in
  cmul (cmul (cmul (field_entry g T aoa aod zoa zod h_phase u s)
                   (array_offset g T aoa aod zoa zod u s))
             (doppler g T aoa zoa aod zod (time t)))
       (cexpi (2 * PI * lt_d3d T / cg_lambda g)).

(* ---- step 11, channel_coefficients.py:1053-1106 ---- *)
Definition scale_coeff (x : R) (h : coeff) : coeff := fun u s t => cmul (h u s t) (creal x).
(* channel_coefficients.py:1094-1096 *)
Definition add_coeff (h h' : coeff) : coeff := fun u s t => cadd (h u s t) (h' u s t).

(* channel_coefficients.py:1084-1104 *)
Definition combine_los (k : R) (h_los : coeff) (h_nlos : list coeff) : list coeff :=
  match map (scale_coeff (sqrt (1 / (k + 1)))) h_nlos with
  | [] => []
  | h0 :: rest => add_coeff (scale_coeff (sqrt (k / (k + 1))) h_los) h0 :: rest
  end.

(* channel_coefficients.py:1053-1106 *)
Definition step_11 (g : cgen) (T : ltopo) (k : R) (y : rays) (time : nat -> R) (c_ds : R)
    (ph : nat -> nat -> nat -> R) : list coeff * list R :=
  let '(h_nlos, delays) :=
    reduce_nlos (cg_sub g) (nlos_ray g T y time ph) (r_powers y) (r_delays y) c_ds in
  (if lt_los T then combine_los k (los_ray g T time) h_nlos else h_nlos, delays).

(* ---- __call__, channel_coefficients.py:204-221: sample times i / sampling_frequency ---- *)
Definition cir (g : cgen) (T : ltopo) (k : R) (y : rays) (fs : R) (c_ds : R) (ph : nat -> nat -> nat -> R)
  : list coeff * list R :=
  step_11 g T k y (fun i => INR i / fs) c_ds ph.

End Reduce.
