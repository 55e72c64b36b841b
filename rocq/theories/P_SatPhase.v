(* Property C95: the Doppler rotation due to the motion of the satellite in finite precision. *)
From Coq Require Import Reals ZArith Lra.
From Verif Require Import M_Base M_Params M_Cplx M_Pathloss M_Coeff M_Float S_Float L_SatPhase.
Open Scope R_scope.


(* C95: in every precision from single to double the computed rotation is the exact phase of the distance v t up to a relative error of 20 units in the last place, for either sign of the speed. *)
Theorem C95_relative_accuracy :
  forall p fc fs v k, (24 <= p <= 53)%Z -> supported_carrier fc -> 0 < fs ->
  let exact := exact_phase fc (v * (INR k / fs)) in
  Rabs (sat_rotation_fp p fc (rnd p v) (sample_time_fp p fs k) - exact) <= 20 * powerRZ 2 (- p) * Rabs exact.
Proof. exact C95_accuracy_l. Qed.
Print Assumptions C95_relative_accuracy.

(* C95: within the first millisecond (one subframe) the rotation and the Doppler factor of a satellite at 600 km or above are right to within 0.01, for every supported carrier, elevation angle, direction of the orbit and sampling frequency. *)
Theorem C95_first_millisecond :
  forall fc fs h e w k, supported_carrier fc -> 0 < fs -> 600000 <= h -> INR k / fs <= 1e-3 ->
  let v := topology_sat_speed h e w in
  let exact := exact_phase fc (v * (INR k / fs)) in
  Rabs (sat_rotation_fp 24 fc (rnd 24 v) (sample_time_fp 24 fs k) - exact) <= 0.01 /\
  Rabs (re (sat_factor_fp 24 fc v fs k) - cos exact) <= 0.01 /\
  Rabs (im (sat_factor_fp 24 fc v fs k) - sin exact) <= 0.01.
Proof. exact C95_subframe_l. Qed.
Print Assumptions C95_first_millisecond.

(* C95 does not hold for long calls: once the rotation exceeds 4.2 million radians (0.7 s at 40 GHz), it is computed as a multiple of half a radian. *)
Theorem C95_grid :
  forall fc fs v k, supported_carrier fc -> 0 < fs -> 0 < v -> 4200000 <= exact_phase fc (v * (INR k / fs)) ->
  exists z : Z, sat_rotation_fp 24 fc (rnd 24 v) (sample_time_fp 24 fs k) = IZR z / 2.
Proof. exact C95_grid_l. Qed.
Print Assumptions C95_grid.

(* C95 does not hold for long calls: for every supported carrier there is a speed of at most 7.2 km/s for which the rotation after 16 s is wrong by at least a quarter of a radian. *)
Theorem C95_long_calls_refuted :
  forall fc fs k, supported_carrier fc -> 0 < fs -> INR k / fs = 16 -> exists v,
  0 < v <= 7200 /\
  1 / 4 <= Rabs (sat_rotation_fp 24 fc (rnd 24 v) (sample_time_fp 24 fs k) - exact_phase fc (v * (INR k / fs))).
Proof. exact C95_refuted_l. Qed.
Print Assumptions C95_long_calls_refuted.

(* the hypotheses are met: a Ka-band carrier, fourteen symbols per millisecond, a satellite at 600 km moving at full speed towards the UT *)
Example C95_example : supported_carrier 20e9 /\ INR 14 / 14000 <= 1e-3 /\ INR 16 / 1 = 16 /\
  topology_sat_speed 600000 0 0 = satellite_speed 600000 /\ 7500 < satellite_speed 600000.
Proof. exact C95_example_l. Qed.
