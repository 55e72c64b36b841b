(* C109: the power budget of a link (free-space loss, sum of the losses, gain) keeps its accuracy in finite precision. *)
From Coq Require Import Reals ZArith Lra.
From Verif Require Import M_Base M_Geometry M_Float M_BudgetFp S_Float S_Pathloss S_Range S_BudgetFp L_BudgetFp.
Open Scope R_scope.

(* C109: computed with p bits, the free-space loss of every supported carrier and every distance from 1 m to 10^8 m is off by at most 1400 units of 2^-p dB. *)
Theorem C109_free_space :
  forall p fc d, (24 <= p <= 53)%Z -> supported_carrier fc -> 1 <= d <= 10 ^ 8 ->
  Rabs (fspl_fp p fc d - free_space fc d) <= 1400 * powerRZ 2 (- p).
Proof. exact C109_free_space_l. Qed.
Print Assumptions C109_free_space.

(* C109: the formula with 32.45 is the law of Friis up to 0.006 dB, for every frequency and distance. *)
Theorem C109_friis :
  forall fc d l, 0 < fc -> 0 < d -> loss_of (friis fc d) l -> Rabs (free_space fc d - l) <= 0.006.
Proof. exact C109_friis_l. Qed.
Print Assumptions C109_friis.

(* C109: the sum of free-space loss, shadow fading, clutter loss (without line of sight only), gas and scintillation loss is off by at most 4200 such units. *)
Theorem C109_pathloss :
  forall p (los : bool) fc d cl sf_los sf_nlos gas scint l, (24 <= p <= 53)%Z -> supported_carrier fc -> 1 <= d <= 10 ^ 8 ->
  moderate (if los then sf_los else sf_nlos) cl gas scint ->
  link_loss los (free_space fc d) (if los then sf_los else sf_nlos) cl gas scint l ->
  Rabs (pl_total_fp p (pl_basic_fp p los fc d cl sf_los sf_nlos) gas scint - l) <= 4200 * powerRZ 2 (- p).
Proof. exact C109_pathloss_l. Qed.
Print Assumptions C109_pathloss.

(* C109: the factor applied to the coefficients is the amplitude whose square is the share of the power left by these losses, times the shadow fading sample, up to a relative error of 600 units. *)
Theorem C109_gain :
  forall p (los : bool) fc d cl sf_los sf_nlos gas scint sf l a, (24 <= p <= 53)%Z -> supported_carrier fc -> 1 <= d <= 10 ^ 8 ->
  moderate (if los then sf_los else sf_nlos) cl gas scint -> 0 < sf ->
  link_loss los (free_space fc d) (if los then sf_los else sf_nlos) cl gas scint l -> amplitude_of l sf a ->
  Rabs (gain_fp p (pl_total_fp p (pl_basic_fp p los fc d cl sf_los sf_nlos) gas scint) sf - a) <= 600 * powerRZ 2 (- p) * a.
Proof. exact C109_gain_l. Qed.
Print Assumptions C109_gain.

(* C109: in single precision, including the error of the distance computed from elevation angle and height, the loss of a satellite link is off by at most 0.0004 dB. *)
Theorem C109_satellite :
  forall (los : bool) fc e h d cl sf_los sf_nlos gas scint l, supported_carrier fc -> 10 <= e <= 90 -> 5e5 <= h ->
  satellite_distance e h d -> d <= 9e7 -> moderate (if los then sf_los else sf_nlos) cl gas scint ->
  link_loss los (free_space fc d) (if los then sf_los else sf_nlos) cl gas scint l ->
  Rabs (pl_total_fp 24 (pl_basic_fp 24 los fc (slant_range_fp 24 e (rnd 24 h)) cl sf_los sf_nlos) gas scint - l) <= 4e-4.
Proof. exact C109_satellite_l. Qed.
Print Assumptions C109_satellite.

(* C109: rounding never turns an order around: a longer link or a higher carrier never has a smaller computed loss or a larger computed amplitude. *)
Theorem C109_order :
  forall p (los : bool) fc fc' d d' cl sf_los sf_nlos gas scint sf, (24 <= p <= 53)%Z -> 0 < fc <= fc' -> 0 < d <= d' ->
  let l := pl_total_fp p (pl_basic_fp p los fc d cl sf_los sf_nlos) gas scint in
  let l' := pl_total_fp p (pl_basic_fp p los fc' d' cl sf_los sf_nlos) gas scint in
  l <= l' /\ gain_fp p l' sf <= gain_fp p l sf.
Proof. exact C109_order_l. Qed.
Print Assumptions C109_order.

(* C109: in single precision a higher satellite seen under the same elevation angle never has a smaller computed loss or a larger computed amplitude. *)
Theorem C109_height :
  forall (los : bool) fc e h h' cl sf_los sf_nlos gas scint sf, 0 < fc -> 10 <= e <= 90 -> 5e5 <= h <= h' ->
  let l x := pl_total_fp 24 (pl_basic_fp 24 los fc (slant_range_fp 24 e (rnd 24 x)) cl sf_los sf_nlos) gas scint in
  l h <= l h' /\ gain_fp 24 (l h') sf <= gain_fp 24 (l h) sf.
Proof. exact C109_height_l. Qed.
Print Assumptions C109_height.

(* in single precision: less than 0.0001 dB for the free-space loss, 0.00026 dB for the sum, 0.004 % for the gain *)
Example C109_numbers : 1400 * powerRZ 2 (- 24) <= 9e-5 /\ 4200 * powerRZ 2 (- 24) <= 2.6e-4 /\ 600 * powerRZ 2 (- 24) <= 4e-5 /\
  4200 * powerRZ 2 (- 53) <= 5e-13.
Proof. exact C109_numbers_l. Qed.

(* the hypotheses of C109 are met: an NLoS link at 2 GHz to a satellite in the zenith at 600 km *)
Example C109_example : exists d l a, supported_carrier 2e9 /\ satellite_distance 90 600000 d /\ 1 <= d <= 9e7 /\
  moderate 4 34.3 0.1 2.2 /\ link_loss false (free_space 2e9 d) 4 34.3 0.1 2.2 l /\ amplitude_of l 1.5 a /\
  loss_of (friis 2e9 d) (- 10 * (ln (friis 2e9 d) / ln 10)).
Proof. exact C109_example_l. Qed.

(* the hypotheses of the ordering theorems are met: carriers of 2 and 3 GHz, satellites at 600 and 1200 km *)
Example C109_order_example : 0 < 2e9 <= 3e9 /\ 0 < 600000 <= 1200000 /\ 10 <= 30 <= 90 /\ 5e5 <= 600000 <= 1200000.
Proof. lra. Qed.
