(* Property C106: the pictures of an antenna element. *)
From Coq Require Import Reals String List Bool Arith.
From Verif Require Import M_Base M_Params M_Antenna M_Gain S_Bessel M_ElementDraw S_ElementDraw L_ElementDraw.
Import ListNotations.
Open Scope string_scope.
Open Scope list_scope.
Open Scope R_scope.

(* C106: the cuts show the radiated power in dB at 361 angles each, near every angle and exactly in the main direction. *)
Theorem C106_cuts :
  forall j1 pat s e, make_element j1 pat s = Ok e ->
  let q := show_element pat e in
  (length (ep_vertical q) = 361%nat /\ length (ep_horizontal q) = 361%nat) /\
  (forall theta v, In (theta, v) (ep_vertical q) -> 0 <= theta <= PI /\ in_db (radiated e theta 0) v) /\
  (forall phi v, In (phi, v) (ep_horizontal q) -> - PI <= phi <= PI /\ in_db (radiated e (PI / 2) phi) v) /\
  (forall theta, 0 <= theta <= PI -> exists theta' v, In (theta', v) (ep_vertical q) /\ Rabs (theta - theta') <= PI / 720) /\
  (forall phi, - PI <= phi <= PI -> exists phi' v, In (phi', v) (ep_horizontal q) /\ Rabs (phi - phi') <= PI / 360) /\
  (exists v w, In (PI / 2, v) (ep_vertical q) /\ In (0, w) (ep_horizontal q)).
Proof. exact C106_cuts_l. Qed.
Print Assumptions C106_cuts.

(* C106: the surface has a point near every direction, each in its direction at the distance of the radiated power; for an aperture the distance is 50 plus the natural logarithm of the power, at least 0. *)
Theorem C106_surface :
  forall j1 pat s e, make_element j1 pat s = Ok e ->
  (forall row q, In row (ep_surface (show_element pat e)) -> In q row -> exists theta phi, 0 <= theta <= PI /\ - PI <= phi <= PI /\
     (pat <> "aperture" -> at_distance (radiated e theta phi) theta phi q) /\
     (pat = "aperture" -> exists r, at_distance r theta phi q /\ (radiated e theta phi = 0 -> r = 0) /\
        (0 < radiated e theta phi -> exp (r - 50) = Rmax (exp (- (50))) (radiated e theta phi)))) /\
  (forall theta phi, 0 <= theta <= PI -> - PI <= phi <= PI -> exists theta' phi' row q, In row (ep_surface (show_element pat e)) /\ In q row /\
     Rabs (theta - theta') <= PI / 198 /\ Rabs (phi - phi') <= PI / 99 /\
     (pat <> "aperture" -> at_distance (radiated e theta' phi') theta' phi' q)).
Proof. exact C106_surface_l. Qed.
Print Assumptions C106_surface.

(* C106 (finding): the surface of an aperture is labelled in dB, but its distances are not 50 plus the gain in dB. *)
Theorem C106_aperture_refuted :
  forall s, exists e row q theta phi r y, make_element bessel_J1 "aperture" s = Ok e /\
  ep_label (show_element "aperture" e) = "-gain in dB" /\ In row (ep_surface (show_element "aperture" e)) /\ In q row /\
  at_distance r theta phi q /\ in_db (radiated e theta phi) (Fin y) /\ 0 < 50 + y < r.
Proof. exact C106_aperture_refuted_l. Qed.
Print Assumptions C106_aperture_refuted.

(* C106: the picture of an array's element is that of an element with the requested pattern, to which the theorems above apply. *)
Theorem C106_array :
  forall j1 p a, make_array j1 p = Ok a -> exists s,
  make_element j1 (ar_pattern p) s = Ok (pa_pol1 a) /\
  show_element_radiation_pattern p a = show_element (ar_pattern p) (pa_pol1 a).
Proof. exact C106_array_l. Qed.
Print Assumptions C106_array.

(* the main direction of a 38.901 element has 8 dB, its back -22 dB *)
Example C106_example : exists e, make_element bessel_J1 "38.901" (PI / 4) = Ok e /\
  let q := show_element "38.901" e in In (PI / 2, Fin 8) (ep_vertical q) /\ In (- PI, Fin (- (22))) (ep_horizontal q).
Proof. exact C106_example_l. Qed.
