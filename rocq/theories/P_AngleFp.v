(* Property C105: the LoS angles in finite precision. *)
From Coq Require Import Reals ZArith Lra.
From Verif Require Import M_Base M_Params M_Geometry L_Geometry M_Float M_AngleFp L_AngleFp.
Open Scope R_scope.

(* C105: the four reported angles lie between 0 and 360 degrees and, up to full turns, close to the exact ones (M_Geometry), for every position. *)
Theorem C105_angles :
  forall p ut bs, (24 <= p <= 53)%Z ->
  (0 <= los_aod_fp p ut bs <= 360 /\ exists k : Z, Rabs (los_aod_fp p ut bs - (los_aod ut bs + 360 * IZR k)) <= 7000 * powerRZ 2 (- p)) /\
  (0 <= los_aoa_fp p ut bs <= 360 /\ exists k : Z, Rabs (los_aoa_fp p ut bs - (los_aoa ut bs + 360 * IZR k)) <= 7000 * powerRZ 2 (- p)) /\
  (0 <= los_zod_fp p ut bs <= 360 /\ exists k : Z, Rabs (los_zod_fp p ut bs - (los_zod ut bs + 360 * IZR k)) <= 7000 * powerRZ 2 (- p)) /\
  (0 <= los_zoa_fp p ut bs <= 360 /\ exists k : Z, Rabs (los_zoa_fp p ut bs - (los_zoa ut bs + 360 * IZR k)) <= 7000 * powerRZ 2 (- p)).
Proof. exact C105_angles_l. Qed.
Print Assumptions C105_angles.

(* C105: the departure angles give the direction from the satellite to the UT, for every position. *)
Theorem C105_direction :
  forall p ut bs, (24 <= p <= 53)%Z ->
  let d := vnorm (vsub ut bs) in
  let r := direction (los_zod_fp p ut bs) (los_aod_fp p ut bs) in
  Rabs (d * vx r - (vx ut - vx bs)) <= 250 * powerRZ 2 (- p) * d /\
  Rabs (d * vy r - (vy ut - vy bs)) <= 250 * powerRZ 2 (- p) * d /\
  Rabs (d * vz r - (vz ut - vz bs)) <= 250 * powerRZ 2 (- p) * d.
Proof. exact C105_direction_l. Qed.
Print Assumptions C105_direction.

(* C105 (finding): 360 itself is reported, although the range of the angles is documented as (0,360): for every UT just below the x axis through the satellite, in every precision. *)
Theorem C105_range_refuted :
  forall p ut bs, (24 <= p <= 53)%Z -> vx bs < vx ut ->
  - (3 * powerRZ 2 (- p) * (vx ut - vx bs)) <= vy ut - vy bs < 0 ->
  los_aod_fp p ut bs = 360 /\ 0 <= los_aod ut bs < 360.
Proof. exact C105_range_refuted_l. Qed.
Print Assumptions C105_range_refuted.

(* in single precision the bounds are a thousandth of a degree and 1.5 centimetres per kilometre; a UT 600 km away meets the hypotheses of the last theorem *)
Example C105_single : 7000 * powerRZ 2 (- 24) <= 1 / 1000 /\ 250 * powerRZ 2 (- 24) <= 1.5 / 10 ^ 5 /\
  let ut := V3 600000 (- (1 / 16)) 1.5 in let bs := V3 0 0 600000 in
  vx bs < vx ut /\ - (3 * powerRZ 2 (- 24) * (vx ut - vx bs)) <= vy ut - vy bs < 0 /\ los_aod_fp 24 ut bs = 360.
Proof. exact C105_single_l. Qed.

(* the angles depend on the position: two UTs on opposite sides of the satellite *)
Example C105_example : Rabs (los_aod_fp 24 (V3 3000 0 1.5) (V3 0 0 600000) - los_aod_fp 24 (V3 (- 3000) 0 1.5) (V3 0 0 600000)) >= 179.
Proof. exact C105_example_l. Qed.
