(* Specification of one ray between two antennas, TR 38.901 equations 7.5-22 and 7.5-29, in terms of
   the field vectors of the two antennas carried along by the rotation of their arrays. *)
From Coq Require Import Reals List Bool Arith.
From Verif Require Import M_Base M_Cplx M_Antenna M_Coeff S_Coeff.
Import ListNotations.
Open Scope R_scope.

(* orientation of an array: slant about x, then downtilt about y, then bearing about z *)
Definition orient (o v : vec3) : vec3 := rot_z (vx o) (rot_y (vy o) (rot_x (vz o) v)).

(* the element behind antenna k of an array: the reported index list it stands in decides *)
Inductive antenna_element (a : panel_array) (k : nat) : element -> Prop :=
| first_polarisation : In k (pa_ind1 a) -> antenna_element a k (pa_pol1 a)
| second_polarisation e : In k (pa_ind2 a) -> pa_pol2 a = Some e -> antenna_element a k e.

(* F: zenith and azimuth components of the field antenna k sends in (or receives from) direction (theta, phi)
   when the array has orientation o: the element's own field vector in the matching local direction, rotated *)
Definition radiates (a : panel_array) (k : nat) (o : vec3) (theta phi : R) (F : R * R) : Prop :=
  exists el theta' phi',
    antenna_element a k el /\ 0 < theta' < PI /\ - PI < phi' <= PI /\
    orient o (rho_hat theta' phi') = rho_hat theta phi /\
    field_vector F theta phi = orient o (field_vector (field el theta' phi') theta' phi').

(* the direction is not the (rotated) vertical axis of the array, where azimuth is meaningless *)
Definition off_axis (o : vec3) (theta phi : R) : Prop :=
  rho_hat theta phi <> orient o (V3 0 0 1) /\ rho_hat theta phi <> orient o (V3 0 0 (- (1))).

(* phase advance of an antenna at local position d *)
Definition steering (fc : R) (o d : vec3) (theta phi : R) : cplx :=
  cexpi (2 * PI * (vdot (rho_hat theta phi) (orient o d) / (299792458 / fc))).

(* a rotation of the polarisation plane *)
Definition turned (a : R) (F : R * R) : R * R := (cos a * fst F - sin a * snd F, sin a * fst F + cos a * snd F).

(* Faraday rotation: 108 degrees at 1 GHz, falling with the square of the frequency, for satellites
   from 600 km on *)
Definition through_ionosphere (fc height : R) (F F' : R * R) : Prop :=
  (600000 <= height -> F' = turned (108 / ((fc / 1e9) * (fc / 1e9)) * PI / 180) F) /\ (height < 600000 -> F' = F).

(* receive field, transposed, times a matrix times transmit field *)
Definition polarised (Frx : R * R) (a b c d : cplx) (Ftx : R * R) : cplx :=
  cadd (cmul (creal (fst Frx)) (cadd (cmul a (creal (fst Ftx))) (cmul b (creal (snd Ftx)))))
       (cmul (creal (snd Frx)) (cadd (cmul c (creal (fst Ftx))) (cmul d (creal (snd Ftx))))).

(* Doppler shift seen on a ray: speed of the terminal towards the ray plus the relative speed of the satellite *)
Definition shift (g : cgen) (T : ltopo) (zoa aoa zod aod f : R) : Prop :=
  exists terminal satellite,
    f = (terminal + satellite) / (299792458 / cg_fc g) /\
    (lt_moving_rx T = true -> terminal = vdot (rho_hat zoa aoa) (lt_vel T)) /\
    (lt_moving_rx T = false -> terminal = vdot (rho_hat zod aod) (lt_vel T)) /\
    (600000 <= lt_bs_height T -> lt_doppler T = true -> satellite = lt_sat_speed T) /\
    (lt_bs_height T < 600000 \/ lt_doppler T = false -> satellite = 0).
