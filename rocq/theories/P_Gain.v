(* Property C86: the gain and directivity computed for an antenna element. *)
From Coq Require Import Reals String List Bool Arith Lra Lia.
From Verif Require Import M_Base L_Base M_Params M_Antenna S_Bessel M_Gain S_Gain L_Gain.
Import ListNotations.
Open Scope string_scope.
Open Scope list_scope.
Open Scope R_scope.

(* C86: for every pattern and slant the computed gain is the nominal peak gain, the directivity is the
   gain relative to the mean over the sphere, and it is never below that of an isotropic radiator by
   more than the error 361/360 of the grid. *)
Theorem C86_gain_and_directivity :
  forall s pat g,
  In (pat, g) [("omni", 0); ("38.901", 8); ("aperture", 0); ("dlp", 0)] ->
  exists e gain directivity, make_element bessel_J1 pat s = Ok e /\ compute_gain e = (gain, directivity) /\
  gain = g /\
  0 < mean_over_sphere (el_pattern e) /\
  directivity = gain - 10 * log10 (mean_over_sphere (el_pattern e)) /\
  10 * log10 (360 / 361) < directivity.
Proof. exact C86_l. Qed.
Print Assumptions C86_gain_and_directivity.

(* C86: the directivity of an omnidirectional element, in closed form: slightly below 0 dB because the
   azimuths -180 and 180 degrees are both counted. *)
Theorem C86_omni_directivity :
  forall j1 s,
  exists e gain directivity, make_element j1 "omni" s = Ok e /\
  compute_gain e = (gain, directivity) /\ gain = 0 /\
  directivity = 10 * log10 (360 / 361 * (tan (PI / 360) / (PI / 360))) /\
  10 * log10 (360 / 361) < directivity < 0.
Proof. exact C86_omni_l. Qed.
Print Assumptions C86_omni_directivity.

Example C86_example : In ("38.901", 8) [("omni", 0); ("38.901", 8); ("aperture", 0); ("dlp", 0)].
Proof. right. left. reflexivity. Qed.
