(* Specification of the gas attenuation (ITU-R P.676, annex 2) and of the tropospheric
   scintillation (ITU-R P.618), written as tables of coefficients.  f in GHz, temperature in
   kelvin, pressure in hPa, vapour density in g/m^3, humidity in percent, elevation in degrees. *)
From Coq Require Import Reals List.
From Verif Require Import M_Base.
Import ListNotations.
Open Scope R_scope.

Definition radians (e : R) : R := e * (PI / 180).
(* ratios to the reference atmosphere *)
Definition temp_ratio (t : R) : R := 288 / t.
Definition press_ratio (p : R) : R := p / 1013.

(* ---- water vapour: nine lines ---- *)
(* centre, strength, temperature decay, width (0: none), centre used in the shape factor *)
Record vapour_line := VLine { vl_f0 : R; vl_strength : R; vl_decay : R; vl_width : R; vl_shape : option R; vl_second : bool }.
Definition vapour_lines : list vapour_line :=
  [ VLine 22.235 3.98 2.23 9.42 (Some 22) false; VLine 183.31 11.96 0.7 11.14 None false;
    VLine 321.226 0.081 6.44 6.29 None false; VLine 325.153 3.66 1.6 9.22 None false;
    VLine 380 25.37 1.09 0 None false; VLine 448 17.4 1.46 0 None false;
    VLine 557 844.6 0.17 0 (Some 557) false; VLine 752 290 0.41 0 (Some 752) false;
    VLine 1780 83328 0.99 0 (Some 1780) true ].
Definition eta1 (rp rt rho : R) : R := 0.955 * rp * Rpower rt 0.68 + 0.006 * rho.
Definition eta2 (rp rt rho : R) : R := 0.735 * rp * Rpower rt 0.5 + 0.0353 * rt ^ 4 * rho.
Definition line_value (f rp rt rho : R) (l : vapour_line) : R :=
  vl_strength l * (if vl_second l then eta2 rp rt rho else eta1 rp rt rho) * exp (vl_decay l * (1 - rt))
  / ((f - vl_f0 l) ^ 2 + vl_width l * eta1 rp rt rho ^ 2)
  * match vl_shape l with None => 1 | Some g => 1 + ((f - g) / (f + g)) ^ 2 end.
(* dB/km *)
Definition vapour_attenuation (f rp rt rho : R) : R :=
  Rsum (map (line_value f rp rt rho) vapour_lines) * f ^ 2 * Rpower rt 2.5 * rho / 10000.

(* ---- dry air below 54 GHz ---- *)
Definition phi (rp rt a b c d : R) : R := Rpower rp a * Rpower rt b * exp (c * (1 - rp) + d * (1 - rt)).
Definition dry_attenuation (f rp rt : R) : R :=
  (7.2 * Rpower rt 2.8 / (f ^ 2 + 0.34 * rp ^ 2 * Rpower rt 1.6)
   + 0.62 * phi rp rt 0.3414 (-6.5851) 0.2130 (-8.5854)
     / (Rpower (54 - f) (1.16 * phi rp rt 0.0717 (-1.8132) 0.0156 (-1.6515)) + 0.83 * phi rp rt 0.5146 (-4.6368) (-0.1921) (-5.7416)))
  * f ^ 2 * rp ^ 2 / 1000.

(* ---- equivalent heights in km ---- *)
Definition dry_height (f rp : R) : R :=
  6.1 / (1 + 0.17 * Rpower rp (-1.1)) *
  Rsum [ 1;
         4.64 / (1 + 0.066 * Rpower rp (-2.3)) * exp (- ((f - 59.7) / (2.87 + 12.4 * exp (-7.9 * rp))) ^ 2);
         0.14 * exp (2.12 * rp) / ((f - 118.75) ^ 2 + 0.031 * exp (2.2 * rp));
         0.0114 / (1 + 0.14 * Rpower rp (-2.6)) * f * (-0.0247 + 0.0001 * f + 1.61e-6 * f ^ 2)
           / (1 - 0.0169 * f + 4.1e-5 * f ^ 2 + 3.2e-7 * f ^ 3) ].
(* centre, strength, width; the coefficients 8.1 and 1.5 are those of the code *)
Definition height_lines : list (R * R * R) := [ (22.235, 1.39, 2.56); (183.31, 3.37, 4.69); (325.1, 1.5, 2.89) ].
Definition vapour_height (f rp : R) : R :=
  let s := 1.013 / (1 + exp (-8.1 * (rp - 0.57))) in
  1.66 * (1 + Rsum (map (fun l => let '(f0, a, w) := l in a * s / ((f - f0) ^ 2 + w * s)) height_lines)).

(* zenith attenuation in dB *)
Definition zenith_attenuation (f pressure temperature vapour : R) : R :=
  let rp := press_ratio pressure in let rt := temp_ratio temperature in
  dry_attenuation f rp rt * dry_height f rp + vapour_attenuation f rp rt vapour * vapour_height f rp.

(* ---- tropospheric scintillation, ITU-R P.618 2.4.1, exceeded for 0.01 percent of the time ---- *)
(* L: effective path length in m *)
Definition wet_refractivity (temperature humidity : R) : R :=
  let t := temperature - 273 in
  3732 * humidity * (6.1121 * exp (17.502 * t / (t + 240.97))) / temperature ^ 2.
Definition averaging_squared (x : R) : R :=
  3.86 * Rpower (x ^ 2 + 1) (11 / 12) * sin (11 / 6 * atan (1 / x)) - 7.08 * Rpower x (5 / 6).
Definition scintillation_depth (L f temperature humidity diameter efficiency e : R) : R :=
  7.196 * ((0.0036 + wet_refractivity temperature humidity / 10000) * Rpower f (7 / 12)
  * sqrt (averaging_squared (1.22 * (efficiency * diameter ^ 2) * f / L)) / Rpower (sin (radians e)) 1.2).
