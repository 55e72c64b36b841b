(* Properties C42 (exact gains) and C79 (readable properties of panels and arrays). *)
From Coq Require Import Reals String List Bool Arith Lra Lia.
From Verif Require Import M_Base M_Params M_Antenna S_Antenna L_Antenna M_Array L_Array S_Bessel L_Bessel.
Import ListNotations.
Open Scope string_scope.
Open Scope list_scope.
Open Scope R_scope.

(* C42: the 38.901 and dlp patterns are, in dB over degrees, the documented formulas; they are symmetric, decrease away from boresight, and are 3 dB down at half the documented beam width. *)
Theorem C42_element_gains :
  forall j1 s,
  (exists e, make_element j1 "38.901" s = Ok e /\
     let g th ph := 10 * log10 (el_pattern e (th * PI / 180) (ph * PI / 180)) in
     (forall th ph, g th ph = gain_38901 th ph) /\
     (forall th ph, g (180 - th) ph = g th ph /\ g th (- ph) = g th ph) /\
     (forall th ph th' ph', Rabs (th - 90) <= Rabs (th' - 90) -> Rabs ph <= Rabs ph' -> g th' ph' <= g th ph) /\
     g 90 0 = 8 /\ g 90 32.5 = 5 /\ g 122.5 0 = 5 /\ g 90 180 = -22) /\
  (exists e, make_element j1 "dlp" s = Ok e /\
     let g th ph := 10 * log10 (el_pattern e (th * PI / 180) (ph * PI / 180)) in
     (forall th ph, g th ph = gain_dlp th ph) /\
     (forall th ph, g (180 - th) ph = g th ph /\ g th (- ph) = g th ph) /\
     (forall th ph th' ph', Rabs (th - 90) <= Rabs (th' - 90) -> Rabs ph <= Rabs ph' -> g th' ph' <= g th ph) /\
     g 90 0 = 0 /\ g 90 45 = -3 /\ g 135 0 = -3 /\ g 90 180 = -25).
Proof. exact element_gains. Qed.
Print Assumptions C42_element_gains.

(* C42: the aperture pattern with the Bessel function itself lies in [0, 1], is (2 J1(y)/y)^2 off axis, vanishes behind, and joins its on-axis value 1 continuously. *)
Theorem C42_aperture_with_the_bessel_function :
  forall s,
  exists e, make_element bessel_J1 "aperture" s = Ok e /\
  el_pattern e (PI / 2) 0 = 1 /\
  (forall theta phi, 0 <= el_pattern e theta phi <= 1) /\
  (forall theta phi, sin theta * cos phi < 0 -> el_pattern e theta phi = 0) /\
  (forall theta phi, 0 <= sin theta * cos phi ->
     let y := 20 * PI * sin (acos (sin theta * cos phi)) in
     (y = 0 -> el_pattern e theta phi = 1) /\
     (0 < y -> el_pattern e theta phi = sq (2 * bessel_J1 y / y)) /\
     Rabs (sqrt (el_pattern e theta phi) - 1) <= y * y / 2).
Proof. exact aperture_J1. Qed.
Print Assumptions C42_aperture_with_the_bessel_function.

Example C42_bessel_example : 0 <= sin (PI / 2) * cos 0.
Proof. rewrite sin_PI2, cos_0. lra. Qed.

(* C79: every readable property of a panel array; the second-polarisation properties are defined for dual arrays only. *)
Theorem C79_array_properties :
  forall j1 p a,
  make_array j1 p = Ok a ->
  let get := array_read p a in
  get "num_rows" = Ok (ANat (ar_rows p)) /\ get "num_cols" = Ok (ANat (ar_cols p)) /\
  get "num_rows_per_panel" = Ok (ANat (ar_rows_pp p)) /\ get "num_cols_per_panel" = Ok (ANat (ar_cols_pp p)) /\
  get "polarization" = Ok (AStr (ar_pol p)) /\ get "polarization_type" = Ok (AStr (ar_type p)) /\
  (exists np ne n pos ind1, get "num_panels" = Ok (ANat np) /\ get "num_panels_ant" = Ok (ANat ne) /\
     get "num_ant" = Ok (ANat n) /\ n = (np * ne)%nat /\ np = (ar_rows p * ar_cols p)%nat /\
     get "ant_pos" = Ok (APoints pos) /\ length pos = n /\
     get "ant_ind_pol1" = Ok (AInds ind1) /\
     get "ant_pos_pol1" = Ok (APoints (map (fun k => nth k pos (V3 0 0 0)) ind1)) /\
     (ar_pol p = "single" -> partitions n ind1 [] /\ ne = (ar_rows_pp p * ar_cols_pp p)%nat /\
        forall name, In name ["ant_pol2"; "ant_ind_pol2"; "ant_pos_pol2"] ->
          exists m, get name = Err (AssertionError m)) /\
     (ar_pol p = "dual" -> ne = (2 * (ar_rows_pp p * ar_cols_pp p))%nat /\
        exists ind2 e, get "ant_ind_pol2" = Ok (AInds ind2) /\ partitions n ind1 ind2 /\
          length ind1 = length ind2 /\ get "ant_pol2" = Ok (AElem e) /\
          get "ant_pos_pol2" = get "ant_pos_pol1")) /\
  (exists ev eh pv ph, get "element_vertical_spacing" = Ok (AReal ev) /\
     get "element_horizontal_spacing" = Ok (AReal eh) /\
     get "panel_vertical_spacing" = Ok (AReal pv) /\ get "panel_horizontal_spacing" = Ok (AReal ph) /\
     (INR (ar_rows_pp p) - 1) * ev < pv /\ (INR (ar_cols_pp p) - 1) * eh < ph /\
     (forall x, ar_elem_v p = Some x -> ev = x) /\ (ar_elem_v p = None -> ev = 0.5) /\
     (forall x, ar_elem_h p = Some x -> eh = x) /\ (ar_elem_h p = None -> eh = 0.5) /\
     (forall x, ar_panel_v p = Some x -> pv = x) /\ (ar_panel_v p = None -> pv = (INR (ar_rows_pp p) - 1) * ev + 0.5) /\
     (forall x, ar_panel_h p = Some x -> ph = x) /\ (ar_panel_h p = None -> ph = (INR (ar_cols_pp p) - 1) * eh + 0.5)).
Proof. exact array_properties. Qed.
Print Assumptions C79_array_properties.

Example C79_example (j1 : R -> R) :
  (exists a, make_array j1 (example_args "dual" "cross") = Ok a) /\
  (exists a, make_array j1 (example_args "single" "V") = Ok a).
Proof. split; apply example_array; cbn; auto. Qed.

(* C79: panels accept exactly the two polarisations; sizes, spacings and positions read back. *)
Theorem C79_panel_properties :
  forall rows cols pol v h,
  ((exists q, make_panel rows cols pol v h = Ok q) <-> pol = "single" \/ pol = "dual") /\
  forall q, make_panel rows cols pol v h = Ok q ->
    panel_read q "num_rows" = Ok (ANat rows) /\ panel_read q "num_cols" = Ok (ANat cols) /\
    panel_read q "vertical_spacing" = Ok (AReal v) /\ panel_read q "horizontal_spacing" = Ok (AReal h) /\
    exists pos, panel_read q "ant_pos" = Ok (APoints pos) /\
      length pos = (rows * cols * (if String.eqb pol "single" then 1 else 2))%nat /\
      forall k i j, (k < (if String.eqb pol "single" then 1 else 2))%nat -> (i < rows)%nat -> (j < cols)%nat ->
        nth (k * (rows * cols) + (j * rows + i)) pos (V3 0 0 0) =
        V3 0 ((INR j - (INR cols - 1) / 2) * h) (((INR rows - 1) / 2 - INR i) * v).
Proof. exact panel_properties. Qed.
Print Assumptions C79_panel_properties.

Example C79_panel_example : exists q, make_panel 4 8 "dual" 0.5 0.5 = Ok q.
Proof. apply panel_properties. right; reflexivity. Qed.

(* C79, refuted: the polarization of a panel cannot be read (the property is spelled porlarization). *)
Theorem C79_panel_polarization_refuted :
  forall rows cols pol v h q,
  make_panel rows cols pol v h = Ok q ->
  exists m, panel_read q "polarization" = Err (AttributeError m).
Proof. exact panel_polarization_missing. Qed.
Print Assumptions C79_panel_polarization_refuted.
