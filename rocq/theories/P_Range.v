(* Property C94: the satellite distance in single precision. *)
From Coq Require Import Reals ZArith Lra.
From Verif Require Import M_Base M_Params M_Geometry M_Float S_Float S_Pathloss S_Range L_Range.
Open Scope R_scope.


(* C94: the distance computed in single precision is the exact one up to a relative error of 10^-5, for every elevation angle from 10 to 90 degrees and every satellite height from 500 km on. *)
Theorem C94_relative_accuracy :
  forall e h d, 10 <= e <= 90 -> 5e5 <= h -> satellite_distance e h d ->
  Rabs (slant_range_fp 24 e (rnd 24 h) - d) <= 1e-5 * d.
Proof. exact C94_accuracy_l. Qed.
Print Assumptions C94_relative_accuracy.

(* C94: hence the free-space path loss at the computed distance is right to within 0.00011 dB. *)
Theorem C94_pathloss :
  forall fc e h d, 10 <= e <= 90 -> 5e5 <= h -> satellite_distance e h d ->
  Rabs (free_space fc (slant_range_fp 24 e (rnd 24 h)) - free_space fc d) <= 1.1e-4.
Proof. exact C94_pathloss_l. Qed.
Print Assumptions C94_pathloss.

(* C94 does not hold to a fraction of a wavelength: from 45 degrees on the computed distance is a multiple of half a metre. *)
Theorem C94_grid :
  forall e h, 45 <= e <= 90 -> 5e5 <= h -> exists z : Z, slant_range_fp 24 e (rnd 24 h) = IZR z / 2.
Proof. exact C94_grid_l. Qed.
Print Assumptions C94_grid.

(* C94 does not hold to a fraction of a wavelength: a satellite in the zenith at n + 1/4 metres is reported at a distance that is wrong by more than one and a half wavelengths of every supported carrier. *)
Theorem C94_wavelength_refuted :
  forall n fc, (600000 <= n <= 1000000)%Z -> supported_carrier fc ->
  let h := IZR n + 1 / 4 in
  rnd 24 h = h /\ satellite_distance 90 h h /\ 1.5 * (299792458 / fc) < Rabs (slant_range_fp 24 90 h - h).
Proof. exact C94_refuted_l. Qed.
Print Assumptions C94_wavelength_refuted.

(* the hypotheses are met: a satellite 600 km up seen at 30 degrees, an S-band carrier, and a height that single precision stores exactly *)
Example C94_example :
  (exists d, satellite_distance 30 600000 d) /\ supported_carrier 2e9 /\ rnd 24 600000.25 = 600000.25.
Proof. exact C94_example_l. Qed.
