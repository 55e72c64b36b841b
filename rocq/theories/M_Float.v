(* Binary floating point and the phase of the line-of-sight component computed with it:
   /repo/OpenNTN/channel_coefficients.py:190 and channel_coefficients.py:1030-1036, and the satellite
   distance, /repo/OpenNTN/system_level_scenario.py:804-813, and the rotation due to the motion of the
   satellite, channel_coefficients.py:207 and channel_coefficients.py:606-634.  Everywhere else in the model floats are real numbers; here each operation is followed by a rounding.
   Simplified: numbers have no smallest and no largest exponent (the values met here lie between
   10^-3 and 10^11, far from both limits), the sine and cosine of the
   phase are exact, and the sine of the elevation angle and the square root are correctly rounded. *)
From Coq Require Import Reals ZArith.
From Verif Require Import M_Base M_Params M_Cplx M_Geometry.
Open Scope R_scope.

(* the exponent of x > 0: 2^(mag x) <= x < 2^(mag x + 1) *)
(* the format of self.rdtype, channel_coefficients.py:190-191 *)
Definition mag (x : R) : Z := Int_part (ln x / ln 2).

(* the distance between neighbouring numbers with p significant bits at x *)
(* the format of self.rdtype, channel_coefficients.py:190-191 *)
Definition ulp (p : Z) (x : R) : R := powerRZ 2 (mag x - (p - 1)).

(* nearest integer, ties to even *)
(* IEEE 754 rounding of every operation, e.g. channel_coefficients.py:1034 *)
Definition nearest_int (y : R) : Z :=
  let n := Int_part y in
  if Rltb (frac_part y) (1 / 2) then n
  else if Rltb (1 / 2) (frac_part y) then (n + 1)%Z
  else if Z.even n then n else (n + 1)%Z.

(* rounding to p significant bits; p = 24 for tf.float32, p = 53 for tf.float64 and Python floats *)
(* IEEE 754 rounding of every operation, e.g. channel_coefficients.py:1034 *)
Definition rnd (p : Z) (x : R) : R :=
  if Rltb 0 x then IZR (nearest_int (x / ulp p x)) * ulp p x
  else if Rltb x 0 then - (IZR (nearest_int (- x / ulp p (- x))) * ulp p (- x))
  else 0.

(* self._lambda_0: the carrier frequency is already a tensor (system_level_scenario.py:84-85), so the
   quotient is computed in the precision p *)
(* channel_coefficients.py:190-191 *)
Definition wavelength_fp (p : Z) (fc : R) : R := rnd p (rnd p speed_of_light / rnd p fc).

(* 2*PI: a Python float, converted to the type of the tensor it is multiplied with *)
(* channel_coefficients.py:1034 *)
Definition two_pi_fp (p : Z) : R := rnd p (2 * rnd 53 PI).

(* 2*PI*d3d/lambda_0; d: the stored distance *)
(* channel_coefficients.py:1030-1034 *)
Definition los_phase_fp (p : Z) (fc d : R) : R := rnd p (rnd p (two_pi_fp p * d) / wavelength_fp p fc).

(* h_delay; the stored distance is the rounded distance *)
(* channel_coefficients.py:1030-1034 *)
Definition los_delay_factor_fp (p : Z) (fc d : R) : cplx := cexpi (los_phase_fp p fc (rnd p d)).

(* math.radians: computed in Python floats *)
(* system_level_scenario.py:806 *)
Definition radians_fp (elev : R) : R := rnd 53 (elev * rnd 53 (PI / 180)).

(* tf.math.sin of a Python float: converted to the precision p first *)
(* system_level_scenario.py:813 *)
Definition sin_elev_fp (p : Z) (elev : R) : R := rnd p (sin (rnd p (radians_fp elev))).

(* distance_3d; h: the stored height of the satellite *)
(* system_level_scenario.py:804-813 *)
Definition slant_range_fp (p : Z) (elev h : R) : R :=
  let s := sin_elev_fp p elev in
  let a := rnd p (rnd p (earth_radius ^ 2) * rnd p (s ^ 2)) in
  let b := rnd p (h ^ 2) in
  let c := rnd p (rnd p (2 * h) * earth_radius) in
  rnd p (rnd p (sqrt (rnd p (rnd p (a + b) + c))) - rnd p (earth_radius * s)).

(* sample_times; k: the number of the sample, fs: the sampling frequency *)
(* channel_coefficients.py:207-208 *)
Definition sample_time_fp (p : Z) (fs : R) (k : nat) : R := rnd p (rnd p (INR k) / rnd p fs).

(* rotation_for_time: the phase due to the motion of the satellite; v: the stored sat_speed.
   The matrix product has inner dimension 1, so it is one product. *)
(* channel_coefficients.py:612-618 *)
Definition sat_rotation_fp (p : Z) (fc v t : R) : R :=
  rnd p (rnd p (rnd p (two_pi_fp p / wavelength_fp p fc) * v) * t).

(* h_doppler of a UT at rest; the stored speed is the rounded speed *)
(* channel_coefficients.py:606-634 *)
Definition sat_factor_fp (p : Z) (fc v fs : R) (k : nat) : cplx :=
  cexpi (sat_rotation_fp p fc (rnd p v) (sample_time_fp p fs k)).
