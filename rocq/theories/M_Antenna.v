(* Antenna elements, panels and panel arrays.  Models /repo/OpenNTN/antenna.py:26-318 and antenna.py:368-574
   (constructors, positions, index sets, slants, radiation patterns).  Plotting (show) is in M_Draw and M_ElementDraw,
   the numerical gain integration (_compute_gain) in M_Gain. *)
From Coq Require Import Reals String List Bool Arith ZArith.
From Verif Require Import M_Base M_Params.
Import ListNotations.
Open Scope string_scope.
Open Scope list_scope.
Open Scope R_scope.

(* ---- radiation patterns, antenna.py:137-224; angles in radians, linear power ---- *)
(* antenna.py:137-149 *)
Definition pattern_omni (theta phi : R) : R := 1.

(* antenna.py:151-170 *)
Definition pattern_38901_db (theta phi : R) : R :=
  let w := 65 / 180 * PI in
  let a_v := - Rmin (12 * sq ((theta - PI / 2) / w)) 30 in
  let a_h := - Rmin (12 * sq (phi / w)) 30 in
  - Rmin (- (a_v + a_h)) 30 + 8.
(* antenna.py:151-169 *)
Definition pattern_38901 (theta phi : R) : R := pow10 (pattern_38901_db theta phi / 10).

(* antenna.py:172-191, default radius a = 10 wavelengths; j1: Bessel function of the first kind, order 1
   (tf.math.special.bessel_j1, external).  The branch of tf.where that is not selected may be NaN
   (0/0 at r = pi), which does not reach the result. *)
Definition pattern_aperture (j1 : R -> R) (theta phi : R) : R :=
  let ka := 10 * 2 * PI in
  let r := acos (sin theta * cos phi) in
  let amplitude := if Req_EM_T 0 r then 1 else 4 * sq (Rabs (j1 (sin r * ka) / (ka * sin r))) in
  if Rltb (0.5 * PI) (Rabs r) then 0 else amplitude.

(* antenna.py:193-224 *)
Definition pattern_dlp_db (theta phi : R) : R :=
  let th := theta * (180 / PI) in
  let ph := phi * (180 / PI) in
  let a_ev := - Rmin (12 * sq ((th - 90) / 90)) 25 in
  let a_eh := - Rmin (12 * sq (ph / 90)) 25 in
  - Rmin (- (a_ev + a_eh)) 25.
(* antenna.py:193-223 *)
Definition pattern_dlp (theta phi : R) : R := pow10 (pattern_dlp_db theta phi / 10).

(* ---- AntennaElement, antenna.py:44-81 ---- *)
Record element := { el_pattern : R -> R -> R; el_slant : R }.

(* antenna.py:44-63 *)
Definition make_element (j1 : R -> R) (pattern : string) (slant : R) : res element :=
  if String.eqb pattern "omni" then Ok {| el_pattern := pattern_omni; el_slant := slant |}
  else if String.eqb pattern "38.901" then Ok {| el_pattern := pattern_38901; el_slant := slant |}
  else if String.eqb pattern "aperture" then Ok {| el_pattern := pattern_aperture j1; el_slant := slant |}
  else if String.eqb pattern "dlp" then Ok {| el_pattern := pattern_dlp; el_slant := slant |}
  else Err (AssertionError "The radiation_pattern must be one of [omni, 38.901, aperture, dlp].").

(* field, antenna.py:65-81: (f_theta, f_phi) *)
Definition field (e : element) (theta phi : R) : R * R :=
  let a := sqrt (el_pattern e theta phi) in
  (a * cos (el_slant e), a * sin (el_slant e)).

(* ---- arrays of positions as write-once numpy buffers ---- *)
(* the position arrays of antenna.py:302 and antenna.py:534 *)
Definition buffer := nat -> vec3.
(* antenna.py:302, antenna.py:534 *)
Definition zeros : buffer := fun _ => V3 0 0 0.                     (* np.zeros *)
(* antenna.py:305-307 *)
Definition write (a : buffer) (k : nat) (v : vec3) : buffer := fun n => if Nat.eqb n k then v else a n.
(* a[lo:hi] = src *)
(* antenna.py:547 *)
Definition write_slice (a : buffer) (lo hi : nat) (src : buffer) : buffer :=
  fun n => if Nat.leb lo n && Nat.ltb n hi then src (n - lo)%nat else a n.

(* the nested for loops antenna.py:303-307, antenna.py:541-548 *)
Definition for_range {A} (n : nat) (body : nat -> A -> A) (a : A) : A :=
  fold_left (fun a i => body i a) (seq 0 n) a.                       (* for i in range(n) *)

(* ---- AntennaPanel, antenna.py:281-318 ---- *)
Definition panel_pos (rows cols : nat) (dual : bool) (v_sp h_sp : R) : buffer :=
  let a := for_range rows (fun i a =>
             for_range cols (fun j a =>
               write a (i + j * rows) (V3 0 (INR j * h_sp) (- INR i * v_sp))) a) zeros in
  let offset := V3 0 (- (INR cols - 1) * h_sp / 2) ((INR rows - 1) * v_sp / 2) in
  let a := fun n => vadd (a n) offset in
  if dual then write_slice a (rows * cols) (rows * cols * 2) a else a.

(* ---- PanelArray, antenna.py:446-574 ---- *)
Record panel_array := {
  pa_num_ant : nat; pa_dual : bool; pa_type : string;
  pa_pos : buffer;                          (* metres, entries 0 .. num_ant-1 *)
  pa_ind1 : list nat; pa_ind2 : list nat;
  pa_pol1 : element; pa_pol2 : option element;
  pa_wavelength : R }.

(* antenna.py:446-458, the constructor parameters *)
Record array_args := {
  ar_rows_pp : nat; ar_cols_pp : nat; ar_pol : string; ar_type : string; ar_pattern : string;
  ar_fc : R; ar_rows : nat; ar_cols : nat;
  ar_panel_v : option R; ar_panel_h : option R; ar_elem_v : option R; ar_elem_h : option R }.

(* antenna.py:465-478, the tests for None *)
Definition default {A} (o : option A) (d : A) : A := match o with Some x => x | None => d end.

(* ind[start:stop:step] of np.reshape(arange, [n, w]), flattened; rows start, start+step, ... < n *)
(* antenna.py:561-569 *)
Definition strided_rows (n w start step : nat) : list nat :=
  flat_map (fun r => map (fun k => (r * w + k)%nat) (seq 0 w))
    (filter (fun r => Nat.leb start r && Nat.eqb (Nat.modulo (r - start) step) 0) (seq 0 n)).

(* antenna.py:541-559 *)
Definition array_pos (rows cols rows_pp cols_pp : nat) (dual : bool) (pv ph ev eh lambda : R) : buffer :=
  let npa := (rows_pp * cols_pp * (if dual then 2 else 1))%nat in
  let pos := panel_pos rows_pp cols_pp dual ev eh in
  let '(a, _) := for_range cols (fun j ac =>
      for_range rows (fun i ac =>
        let '(a, count) := ac in
        (write_slice a (count * npa) ((count + 1) * npa)
           (fun n => vadd (pos n) (V3 0 (INR j * ph) (- INR i * pv))), (count + 1)%nat)) ac) (zeros, 0%nat) in
  let offset := V3 0 (- (INR cols - 1) * ph / 2) ((INR rows - 1) * pv / 2) in
  fun n => vscale lambda (vadd (a n) offset).

(* numbers of rows, columns and panels of at least 1 are assumed: with 0 numpy's reshape raises,
   modelled by the last test *)
(* antenna.py:446-574 *)
Definition make_array (j1 : R -> R) (p : array_args) : res panel_array :=
  if negb (String.eqb (ar_pol p) "single" || String.eqb (ar_pol p) "dual")
  then Err (AssertionError "polarization must be either 'single' or 'dual'") else
  let ev := default (ar_elem_v p) 0.5 in
  let eh := default (ar_elem_h p) 0.5 in
  let pv := default (ar_panel_v p) ((INR (ar_rows_pp p) - 1) * ev + 0.5) in
  let ph := default (ar_panel_h p) ((INR (ar_cols_pp p) - 1) * eh + 0.5) in
  if negb (Rltb ((INR (ar_cols_pp p) - 1) * eh) ph)
  then Err (AssertionError "Pannel horizontal spacing must be larger than the panel width") else
  if negb (Rltb ((INR (ar_rows_pp p) - 1) * ev) pv)
  then Err (AssertionError "Pannel vertical spacing must be larger than panel height") else
  let dual := negb (String.eqb (ar_pol p) "single") in
  let np := (ar_cols p * ar_rows p)%nat in
  let pn := if dual then 2%nat else 1%nat in
  let num_ant := (np * (ar_cols_pp p * ar_rows_pp p * pn))%nat in
  let lambda := speed_of_light / ar_fc p in
  pols <- (if dual then
             if negb (String.eqb (ar_type p) "VH" || String.eqb (ar_type p) "cross")
             then Err (AssertionError "For dual polarization, polarization_type must be 'VH' or 'cross'")
             else
               (* antenna.py:527: the comparison is with polarization, not polarization_type *)
               let slant := if String.eqb (ar_pol p) "VH" then 0 else - PI / 4 in
               p1 <- make_element j1 (ar_pattern p) slant ;;
               p2 <- make_element j1 (ar_pattern p) (slant + PI / 2) ;;
               Ok (p1, Some p2)
           else
             if negb (String.eqb (ar_type p) "V" || String.eqb (ar_type p) "H")
             then Err (AssertionError "For single polarization, polarization_type must be 'V' or 'H'")
             else
               let slant := if String.eqb (ar_type p) "V" then 0 else PI / 2 in
               p1 <- make_element j1 (ar_pattern p) slant ;;
               Ok (p1, None)) ;;
  if Nat.eqb (np * pn) 0 then Err (ValueError "cannot reshape") else
  let w := (ar_cols_pp p * ar_rows_pp p)%nat in
  Ok {| pa_num_ant := num_ant; pa_dual := dual; pa_type := ar_type p;
        pa_pos := array_pos (ar_rows p) (ar_cols p) (ar_rows_pp p) (ar_cols_pp p) dual pv ph ev eh lambda;
        pa_ind1 := strided_rows (np * pn) w 0 pn;
        pa_ind2 := if dual then strided_rows (np * pn) w 1 2 else [];
        pa_pol1 := fst pols; pa_pol2 := snd pols;
        pa_wavelength := lambda |}.

(* Antenna, antenna.py:755-767, and AntennaArray, antenna.py:813-831: panel arrays with a single panel *)
Definition make_antenna (j1 : R -> R) (pol typ pattern : string) (fc : R) : res panel_array :=
  make_array j1 {| ar_rows_pp := 1; ar_cols_pp := 1; ar_pol := pol; ar_type := typ; ar_pattern := pattern;
                   ar_fc := fc; ar_rows := 1; ar_cols := 1; ar_panel_v := None; ar_panel_h := None;
                   ar_elem_v := None; ar_elem_h := None |}.
(* antenna.py:813-831 *)
Definition make_antenna_array (j1 : R -> R) (rows cols : nat) (pol typ pattern : string) (fc : R)
    (v_sp h_sp : option R) : res panel_array :=
  make_array j1 {| ar_rows_pp := rows; ar_cols_pp := cols; ar_pol := pol; ar_type := typ; ar_pattern := pattern;
                   ar_fc := fc; ar_rows := 1; ar_cols := 1; ar_panel_v := None; ar_panel_h := None;
                   ar_elem_v := v_sp; ar_elem_h := h_sp |}.
