(* Properties C39-C42 and C63 of the antenna arrays. *)
From Coq Require Import Reals String List Bool Arith Lra Lia.
From Verif Require Import M_Base M_Params M_Antenna S_Antenna L_Antenna.
Import ListNotations.
Open Scope string_scope.
Open Scope list_scope.
Open Scope R_scope.

(* C63: exactly the documented polarisation, pattern and spacing settings are accepted. *)
Theorem C63_array_constructor :
  forall j1 p,
  let ev := match ar_elem_v p with Some x => x | None => 0.5 end in
  let eh := match ar_elem_h p with Some x => x | None => 0.5 end in
  (exists a, make_array j1 p = Ok a) <->
  In (ar_pol p, ar_type p) [("single", "V"); ("single", "H"); ("dual", "VH"); ("dual", "cross")] /\
  In (ar_pattern p) ["omni"; "38.901"; "aperture"; "dlp"] /\
  (forall v, ar_panel_v p = Some v -> (INR (ar_rows_pp p) - 1) * ev < v) /\
  (forall h, ar_panel_h p = Some h -> (INR (ar_cols_pp p) - 1) * eh < h) /\
  (1 <= ar_rows p)%nat /\ (1 <= ar_cols p)%nat.
Proof. exact C63_l. Qed.
Print Assumptions C63_array_constructor.

(* C39: number of elements and the position of every element, panel and polarisation. *)
Theorem C39_positions :
  forall j1 p a,
  make_array j1 p = Ok a ->
  let ev := match ar_elem_v p with Some x => x | None => 0.5 end in
  let eh := match ar_elem_h p with Some x => x | None => 0.5 end in
  let pv := match ar_panel_v p with Some x => x | None => (INR (ar_rows_pp p) - 1) * ev + 0.5 end in
  let ph := match ar_panel_h p with Some x => x | None => (INR (ar_cols_pp p) - 1) * eh + 0.5 end in
  let pn := if pa_dual a then 2%nat else 1%nat in
  pa_dual a = String.eqb (ar_pol p) "dual" /\
  pa_num_ant a = (ar_rows_pp p * ar_cols_pp p * ar_rows p * ar_cols p * pn)%nat /\
  (forall pi pj q i j, (pi < ar_rows p)%nat -> (pj < ar_cols p)%nat -> (q < pn)%nat ->
     (i < ar_rows_pp p)%nat -> (j < ar_cols_pp p)%nat ->
     let n := ((pj * ar_rows p + pi) * (ar_rows_pp p * ar_cols_pp p * pn)
        + (q * (ar_rows_pp p * ar_cols_pp p) + (j * ar_rows_pp p + i)))%nat in
     (n < pa_num_ant a)%nat /\
     pa_pos a n = documented_position (ar_rows p) (ar_cols p) (ar_rows_pp p) (ar_cols_pp p) pv ph ev eh
                    (speed_of_light / ar_fc p) pi pj i j /\
     (In n (pa_ind1 a) <-> q = 0%nat) /\ (In n (pa_ind2 a) <-> q = 1%nat)) /\
  (forall n, (n < pa_num_ant a)%nat -> exists pi pj q i j,
     (pi < ar_rows p)%nat /\ (pj < ar_cols p)%nat /\ (q < pn)%nat /\
     (i < ar_rows_pp p)%nat /\ (j < ar_cols_pp p)%nat /\
     n = ((pj * ar_rows p + pi) * (ar_rows_pp p * ar_cols_pp p * pn)
        + (q * (ar_rows_pp p * ar_cols_pp p) + (j * ar_rows_pp p + i)))%nat).
Proof. exact C39_positions_l. Qed.
Print Assumptions C39_positions.

(* C39: an AntennaArray is one panel of rows x cols elements with the given spacings. *)
Theorem C39_antenna_array :
  forall j1 rows cols pol typ pattern fc v h a,
  make_antenna_array j1 rows cols pol typ pattern fc v h = Ok a ->
  let ev := match v with Some x => x | None => 0.5 end in
  let eh := match h with Some x => x | None => 0.5 end in
  let pn := if String.eqb pol "dual" then 2%nat else 1%nat in
  pa_num_ant a = (pn * (rows * cols))%nat /\
  forall q i j, (q < pn)%nat -> (i < rows)%nat -> (j < cols)%nat ->
    let n := (q * (rows * cols) + (j * rows + i))%nat in
    (n < pa_num_ant a)%nat /\ (In n (pa_ind1 a) <-> q = 0%nat) /\ (In n (pa_ind2 a) <-> q = 1%nat) /\
    pa_pos a n = V3 0 (speed_of_light / fc * eh * (INR j - (INR cols - 1) / 2))
                      (speed_of_light / fc * ev * ((INR rows - 1) / 2 - INR i)).
Proof. exact single_panel_l. Qed.
Print Assumptions C39_antenna_array.

(* C39: an Antenna is one element, or one pair of elements, at the origin. *)
Theorem C39_antenna :
  forall j1 pol typ pattern fc a,
  make_antenna j1 pol typ pattern fc = Ok a ->
  pa_num_ant a = (if String.eqb pol "dual" then 2%nat else 1%nat) /\
  forall n, (n < pa_num_ant a)%nat -> pa_pos a n = V3 0 0 0 /\ (In n (pa_ind1 a) <-> n = 0%nat).
Proof. exact single_antenna_l. Qed.
Print Assumptions C39_antenna.

(* C39: the array is centred at the origin in the y-z plane. *)
Theorem C39_centred :
  forall j1 p a,
  make_array j1 p = Ok a ->
  centred (pa_num_ant a) (pa_pos a) /\ forall n, (n < pa_num_ant a)%nat -> vx (pa_pos a n) = 0.
Proof. exact C39_centred_l. Qed.
Print Assumptions C39_centred.

(* C39: elements of one polarisation have distinct positions. *)
Theorem C39_distinct :
  forall j1 p a n m,
  make_array j1 p = Ok a -> 0 < ar_fc p ->
  (forall v, ar_elem_v p = Some v -> 0 < v) -> (forall v, ar_elem_h p = Some v -> 0 < v) ->
  (In n (pa_ind1 a) /\ In m (pa_ind1 a)) \/ (In n (pa_ind2 a) /\ In m (pa_ind2 a)) ->
  pa_pos a n = pa_pos a m -> n = m.
Proof. exact C39_distinct_l. Qed.
Print Assumptions C39_distinct.

(* C39: the two polarisations occupy the same positions, in the same order. *)
Theorem C39_dual_pairs :
  forall j1 p a,
  make_array j1 p = Ok a -> pa_dual a = true ->
  map (pa_pos a) (pa_ind1 a) = map (pa_pos a) (pa_ind2 a).
Proof. exact C39_pairs_l. Qed.
Print Assumptions C39_dual_pairs.

(* C40: the two index lists partition the elements and have equal sizes. *)
Theorem C40_index_partition :
  forall j1 p a,
  make_array j1 p = Ok a ->
  partitions (pa_num_ant a) (pa_ind1 a) (pa_ind2 a) /\
  length (pa_ind1 a) = (ar_rows p * ar_cols p * ar_rows_pp p * ar_cols_pp p)%nat /\
  length (pa_ind2 a) = (if pa_dual a then length (pa_ind1 a) else 0%nat).
Proof. exact array_partition. Qed.
Print Assumptions C40_index_partition.

(* C41: slants of V, H and cross arrays. *)
Theorem C41_slants :
  forall j1 p a,
  make_array j1 p = Ok a ->
  (ar_type p = "V" -> el_slant (pa_pol1 a) = 0 /\ pa_pol2 a = None) /\
  (ar_type p = "H" -> el_slant (pa_pol1 a) = PI / 2 /\ pa_pol2 a = None) /\
  (ar_type p = "cross" -> el_slant (pa_pol1 a) = - (PI / 4) /\
     exists e, pa_pol2 a = Some e /\ el_slant e = PI / 4) /\
  (ar_type p = "V" \/ ar_type p = "H" \/ ar_type p = "VH" \/ ar_type p = "cross").
Proof. exact C41_l. Qed.
Print Assumptions C41_slants.

(* C41 fails for 'VH': such arrays are built with slants -45 and +45 degrees. *)
Theorem C41_vh_refuted :
  forall j1 p a,
  make_array j1 p = Ok a -> ar_type p = "VH" ->
  el_slant (pa_pol1 a) = - (PI / 4) /\ el_slant (pa_pol1 a) <> 0 /\
  exists e, pa_pol2 a = Some e /\ el_slant e = PI / 4 /\ el_slant e <> PI / 2.
Proof. exact C41_vh_l. Qed.
Print Assumptions C41_vh_refuted.

(* C42: squared field components sum to the power pattern, along the slant. *)
Theorem C42_field_power :
  forall j1 pat s e theta phi,
  make_element j1 pat s = Ok e ->
  sq (fst (field e theta phi)) + sq (snd (field e theta phi)) = el_pattern e theta phi /\
  0 <= el_pattern e theta phi /\
  sin s * fst (field e theta phi) = cos s * snd (field e theta phi).
Proof. exact C42_field_l. Qed.
Print Assumptions C42_field_power.

(* C42: ranges and maxima of the 38.901, omni and dlp patterns. *)
Theorem C42_patterns :
  forall j1 s,
  (exists e, make_element j1 "38.901" s = Ok e /\
    (forall theta phi, pow10 (-2.2) <= el_pattern e theta phi <= pow10 0.8) /\
    (forall theta phi, el_pattern e theta phi = pow10 0.8 <-> theta = PI / 2 /\ phi = 0)) /\
  (exists e, make_element j1 "omni" s = Ok e /\ forall theta phi, el_pattern e theta phi = 1) /\
  (exists e, make_element j1 "dlp" s = Ok e /\
    (forall theta phi, pow10 (-2.5) <= el_pattern e theta phi <= 1) /\
    (forall theta phi, el_pattern e theta phi = 1 <-> theta = PI / 2 /\ phi = 0)).
Proof. exact C42_patterns_l. Qed.
Print Assumptions C42_patterns.

(* C42: the aperture pattern. *)
Theorem C42_aperture :
  forall j1 s,
  exists e, make_element j1 "aperture" s = Ok e /\
  el_pattern e (PI / 2) 0 = 1 /\
  (forall theta phi, 0 <= el_pattern e theta phi) /\
  (forall theta phi, sin theta * cos phi < 0 -> el_pattern e theta phi = 0) /\
  (bessel_bound j1 -> forall theta phi, el_pattern e theta phi <= 1).
Proof. exact C42_aperture_l. Qed.
Print Assumptions C42_aperture.

(* Non-vacuity: the four kinds of arrays can be built; a 2 x 2 panel array of 3 x 2 dual-polarised
   elements has 48 antennas, and its first element sits in the upper left corner. *)
Example antenna_example (j1 : R -> R) :
  exists a, make_array j1 (example_args "dual" "VH") = Ok a /\ pa_num_ant a = 48%nat /\
  pa_pos a 0%nat = V3 0 (speed_of_light / 2e9 * (- (1) / 2 * (1 * 0.5 + 0.5) + - (1) / 2 * 0.5))
                        (speed_of_light / 2e9 * (1 / 2 * 4 + 1 * 0.7)).
Proof.
  destruct (example_array j1 "dual" "VH") as [a H]; [cbn; auto|]. exists a. split; [exact H|].
  pose proof (C39_positions_l _ _ _ H) as K. cbv zeta in K. destruct K as (D & N & K & _).
  change (pa_dual a = true) in D. rewrite D in *.
  split; [rewrite N; reflexivity|].
  destruct (K 0 0 0 0 0)%nat as (_ & E & _); cbn [example_args ar_rows ar_cols ar_rows_pp ar_cols_pp]; try lia.
  cbn [Nat.add Nat.mul] in E. rewrite E. unfold documented_position.
  cbn [example_args ar_rows ar_cols ar_rows_pp ar_cols_pp ar_panel_v ar_panel_h ar_elem_v ar_elem_h ar_fc INR].
  f_equal; f_equal; lra.
Qed.

(* the bound assumed for the Bessel function in the last part of C42 is met, with equality, by its
   first-order approximation, so the hypothesis is not contradictory *)
Example bessel_example : bessel_bound (fun x => x / 2).
Proof. intros x. unfold Rdiv. rewrite Rabs_mult, (Rabs_right (/ 2)) by lra. lra. Qed.

Example antenna_array_example (j1 : R -> R) :
  (exists a, make_antenna_array j1 2 3 "dual" "cross" "omni" 2e9 None (Some 0.7) = Ok a) /\
  (exists a, make_antenna j1 "single" "V" "omni" 2e9 = Ok a).
Proof.
  split; apply C63_l; cbn [ar_pol ar_type ar_pattern ar_panel_v ar_panel_h ar_elem_v ar_elem_h ar_rows ar_cols ar_rows_pp ar_cols_pp];
    (split; [cbn; tauto|]); (split; [cbn; tauto|]); (split; [discriminate|]); (split; [discriminate|]); split; auto.
Qed.
