(* AntennaElement.show, /repo/OpenNTN/antenna.py:83-130, and PanelArray.show_element_radiation_pattern,
   antenna.py:721-723: the points handed to the plotting library.
   Titles, legends, line styles and the view are left out. *)
From Coq Require Import Reals String List Bool Arith.
From Verif Require Import M_Base M_Params M_Antenna M_Gain.
Import ListNotations.
Open Scope string_scope.
Open Scope list_scope.
Open Scope R_scope.

(* 10*log10(x) of a power: the logarithm of 0 is minus infinity *)
(* antenna.py:89-90 *)
Definition decibel (x : R) : ext := if Rltb 0 x then Fin (10 * log10 x) else NegInf.

(* the vertical cut: pairs of an angle and a gain in dB *)
(* antenna.py:87-93 *)
Definition vertical_cut (e : element) : list (R * ext) :=
  map (fun i => let theta := linspace 0 PI 360 i in (theta, decibel (el_pattern e theta 0))) (seq 0 361).

(* the horizontal cut *)
(* antenna.py:88-90, antenna.py:99-100 *)
Definition horizontal_cut (e : element) : list (R * ext) :=
  map (fun i => let phi := linspace (- PI) PI 360 i in (phi, decibel (el_pattern e (PI / 2) phi))) (seq 0 361).

(* tf.where(a > 0, a, 0) after a = 50 + log(a, 10); the second argument of tf.math.log is the name of the
   operation, so the logarithm is the natural one; that the name is not text is taken not to matter *)
(* antenna.py:110-112 *)
Definition aperture_radius (a : R) : R := if Rltb 0 a then Rmax 0 (50 + ln a) else 0.

(* the distance of a point of the surface from the origin *)
(* antenna.py:107-112 *)
Definition surface_radius (pattern : string) (a : R) : R :=
  if String.eqb pattern "aperture" then aperture_radius a else a.

(* x, y and z at the entry of the grid with the given angles *)
(* antenna.py:114-116 *)
Definition surface_point (pattern : string) (e : element) (theta phi : R) : vec3 :=
  let a := surface_radius pattern (el_pattern e theta phi) in
  V3 (a * sin theta * cos phi) (a * sin theta * sin phi) (a * cos theta).

(* 100 x 100 points; a row has one zenith angle *)
(* antenna.py:104-116 *)
Definition surface (pattern : string) (e : element) : list (list vec3) :=
  map (fun i => map (fun j => surface_point pattern e (linspace 0 PI 99 i) (linspace (- PI) PI 99 j)) (seq 0 100)) (seq 0 100).

(* the three pictures *)
(* antenna.py:83-130 *)
Record element_picture := {
  ep_vertical : list (R * ext); ep_horizontal : list (R * ext);
  ep_surface : list (list vec3); ep_label : string }.

(* antenna.py:83-130 *)
Definition show_element (pattern : string) (e : element) : element_picture :=
  {| ep_vertical := vertical_cut e; ep_horizontal := horizontal_cut e; ep_surface := surface pattern e;
     ep_label := if String.eqb pattern "aperture" then "-gain in dB" else "x" |}.

(* antenna.py:721-723 *)
Definition show_element_radiation_pattern (p : array_args) (a : panel_array) : element_picture :=
  show_element (ar_pattern p) (pa_pol1 a).
