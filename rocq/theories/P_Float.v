(* Property C87: the phase of the line-of-sight component in finite precision. *)
From Coq Require Import Reals ZArith Lra.
From Verif Require Import M_Base M_Params M_Cplx M_Float S_Float L_Float.
Open Scope R_scope.


(* C87: in every precision from single to double the computed phase is the exact phase up to a relative error of 14 units in the last place. *)
Theorem C87_relative_accuracy :
  forall p fc d, (24 <= p <= 53)%Z -> supported_carrier fc -> 0 < d ->
  Rabs (los_phase_fp p fc (rnd p d) - exact_phase fc d) <= 14 * powerRZ 2 (- p) * exact_phase fc d.
Proof. exact C87_accuracy_l. Qed.
Print Assumptions C87_relative_accuracy.

(* C87: in double precision the phase and the line-of-sight factor are right to within 10^-4 for every supported carrier and every distance up to beyond geostationary orbit. *)
Theorem C87_double_precision :
  forall fc d, supported_carrier fc -> 0 < d <= 5e7 ->
  Rabs (los_phase_fp 53 fc (rnd 53 d) - exact_phase fc d) <= 1e-4 /\
  Rabs (re (los_delay_factor_fp 53 fc d) - cos (exact_phase fc d)) <= 1e-4 /\
  Rabs (im (los_delay_factor_fp 53 fc d) - sin (exact_phase fc d)) <= 1e-4.
Proof. exact C87_double_l. Qed.
Print Assumptions C87_double_precision.

(* C87 does not hold in single precision, the default: from 600 km on, the computed phase is an even number of radians, and with a Ka-band carrier a multiple of 16 radians. *)
Theorem C87_single_precision_grid :
  forall fc d, 6e5 <= d ->
  (1.9e9 <= fc -> exists z : Z, los_phase_fp 24 fc d = 2 * IZR z) /\
  (19e9 <= fc -> exists z : Z, los_phase_fp 24 fc d = 16 * IZR z).
Proof. exact C87_single_l. Qed.
Print Assumptions C87_single_precision_grid.

(* C87 does not hold in single precision: for every supported carrier there are distances half a wavelength apart, whose exact line-of-sight factors are opposite, for which the computed factors are equal. *)
Theorem C87_single_precision_refuted :
  forall fc, supported_carrier fc -> exists d d',
  1e6 <= d < d' /\ d' <= 1.1e6 /\
  exact_phase fc d' = exact_phase fc d + PI /\
  cexpi (exact_phase fc d') = Cx (- re (cexpi (exact_phase fc d))) (- im (cexpi (exact_phase fc d))) /\
  los_delay_factor_fp 24 fc d' = los_delay_factor_fp 24 fc d.
Proof. exact C87_refuted_l. Qed.
Print Assumptions C87_single_precision_refuted.

(* a Ka-band carrier and a satellite 600 km away *)
Example C87_example : supported_carrier 20e9 /\ 0 < 600000 <= 5e7 /\ 2e8 < exact_phase 20e9 600000.
Proof.
  split; [unfold supported_carrier; lra|]. split; [lra|].
  assert (E := exact_phase_ge 20e9 600000 20e9 600000 ltac:(lra) ltac:(lra)). lra.
Qed.

(* rounding does round: one third to two significant bits *)
Example C87_example_rounding : rnd 2 (1 / 3) = 3 / 8.
Proof. exact rnd_example. Qed.
