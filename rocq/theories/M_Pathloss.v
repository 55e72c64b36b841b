(* Path loss components.  Models /repo/OpenNTN/utils.py:1593-1692 (compute_pathloss_gas),
   :1695-1755 (compute_pathloss_scintilation), :1759-1763 (compute_pathloss_entry),
   :1765-1784 (compute_pathloss_basic), :1955-1962 (compute_satellite_speed), :1964-2000
   (compute_stallite_doppler) and lsp.py:94-118 (sample_pathloss).
   x**y with a non-integer y is Rpower x y (all bases are positive in the supported range). *)
From Coq Require Import Reals String List Bool.
From Verif Require Import M_Base M_Params M_Geometry.
Import ListNotations.
Open Scope R_scope.

(* The atmospheric arguments of set_topology (system_level_scenario.py:502-505). *)
Record weather := {
  w_latitude : R; w_lwc : R; w_rain : R; w_pressure : R; w_temperature : R;
  w_vapor : R; w_humidity : R; w_diameter : R; w_efficiency : R }.

(* utils.py:1765-1784, first part; d in metres, fc in Hz *)
Definition fspl (fc d : R) : R := 32.45 + 20 * log10 (fc / 10 ^ 9) + 20 * log10 d.

(* utils.py:1773-1782; sf_los, sf_nlos are the N(0,sigma) draws of the link *)
Definition pl_basic (los : bool) (fc d cl sf_los sf_nlos : R) : R :=
  if los then fspl fc d + sf_los else fspl fc d + sf_nlos + cl.

(* utils.py:1759-1763 *)
Definition pl_entry : R := 0.

(* utils.py:1611-1624 water vapour specific attenuation; f in GHz *)
Definition gas_rt (w : weather) : R := 288 / w_temperature w.
(* utils.py:1612 *)
Definition gas_rp (w : weather) : R := w_pressure w / 1013.
(* utils.py:1613 *)
Definition gas_n1 (w : weather) : R :=
  0.955 * gas_rp w * Rpower (gas_rt w) 0.68 + 0.006 * w_vapor w.
(* utils.py:1614 *)
Definition gas_n2 (w : weather) : R :=
  0.735 * gas_rp w * Rpower (gas_rt w) 0.5 + 0.0353 * (gas_rt w) ^ 4 * w_vapor w.

(* utils.py:1615-1624 *)
Definition gas_Yw (w : weather) (f : R) : R :=
  let rt := gas_rt w in let n1 := gas_n1 w in let n2 := gas_n2 w in
  ( (3.98 * n1 * exp (2.23 * (1 - rt))) / ((f - 22.235) ^ 2 + 9.42 * n1 ^ 2)
      * (1 + ((f - 22) / (f + 22)) ^ 2)
  + (11.96 * n1 * exp (0.7 * (1 - rt))) / ((f - 183.31) ^ 2 + 11.14 * n1 ^ 2)
  + (0.081 * n1 * exp (6.44 * (1 - rt))) / ((f - 321.226) ^ 2 + 6.29 * n1 ^ 2)
  + (3.66 * n1 * exp (1.6 * (1 - rt))) / ((f - 325.153) ^ 2 + 9.22 * n1 ^ 2)
  + (25.37 * n1 * exp (1.09 * (1 - rt))) / (f - 380) ^ 2
  + (17.4 * n1 * exp (1.46 * (1 - rt))) / (f - 448) ^ 2
  + (844.6 * n1 * exp (0.17 * (1 - rt))) / (f - 557) ^ 2 * (1 + ((f - 557) / (f + 557)) ^ 2)
  + (290 * n1 * exp (0.41 * (1 - rt))) / (f - 752) ^ 2 * (1 + ((f - 752) / (f + 752)) ^ 2)
  + (83328 * n2 * exp (0.99 * (1 - rt))) / (f - 1780) ^ 2 * (1 + ((f - 1780) / (f + 1780)) ^ 2))
  * (f ^ 2 * Rpower rt 2.5 * (w_vapor w * / 10 ^ 4)).

(* utils.py:1627-1628 *)
Definition gas_hw (w : weather) (f : R) : R :=
  let conw := 1.013 / (1 + exp ((0 - 8.1) * (gas_rp w - 0.57))) in
  1.66 * (1 + 1.39 * conw / ((f - 22.235) ^ 2 + 2.56 * conw)
            + 3.37 * conw / ((f - 183.31) ^ 2 + 4.69 * conw)
            + 1.5 * conw / ((f - 325.1) ^ 2 + 2.89 * conw)).

(* utils.py:1634-1636; the constants ee4..ee7, g54..g66 only occur in branches f > 54 *)
Definition gas_ee1 (w : weather) : R :=
  Rpower (gas_rp w) 0.0717 * Rpower (gas_rt w) (-1.8132)
    * exp (0.0156 * (1 - gas_rp w) + - 1.6515 * (1 - gas_rt w)).
(* utils.py:1635 *)
Definition gas_ee2 (w : weather) : R :=
  Rpower (gas_rp w) 0.5146 * Rpower (gas_rt w) (-4.6368)
    * exp (- 0.1921 * (1 - gas_rp w) + - 5.7416 * (1 - gas_rt w)).
(* utils.py:1636 *)
Definition gas_ee3 (w : weather) : R :=
  Rpower (gas_rp w) 0.3414 * Rpower (gas_rt w) (0 - 6.5851)
    * exp (0.2130 * (1 - gas_rp w) + - 8.5854 * (1 - gas_rt w)).

(* utils.py:1656-1657: the branch f <= 54 GHz.  The branches for 54 < f (lines 1659-1674) are
   unreachable: every accepted carrier is at most 40 GHz (property C01); not modelled. *)
Definition gas_Yo (w : weather) (f : R) : R :=
  let rt := gas_rt w in let rp := gas_rp w in
  ( 7.2 * Rpower rt 2.8 / (f ^ 2 + 0.34 * rp ^ 2 * Rpower rt 1.6)
  + 0.62 * gas_ee3 w / (Rpower (54 - f) (1.16 * gas_ee1 w) + 0.83 * gas_ee2 w))
  * (f ^ 2 * rp ^ 2 * / 10 ^ 3).

(* utils.py:1677-1680 equivalent height *)
Definition gas_ho (w : weather) (f : R) : R :=
  let rp := gas_rp w in
  let t1 := 4.64 / (1 + 0.066 * Rpower rp (-2.3))
            * exp (- ((f - 59.7) / (2.87 + 12.4 * exp (- 7.9 * rp))) ^ 2) in
  let t2 := 0.14 * exp (2.12 * rp) / ((f - 118.75) ^ 2 + 0.031 * exp (2.2 * rp)) in
  let t3 := 0.0114 / (1 + 0.14 * Rpower rp (-2.6)) * f
            * ((- 0.0247 + 0.0001 * f + 1.61 / 10 ^ 6 * f ^ 2)
               / (1 - 0.0169 * f + 4.1 / 10 ^ 5 * f ^ 2 + 3.2 / 10 ^ 7 * f ^ 3)) in
  6.1 / (1 + 0.17 * Rpower rp (-1.1)) * (1 + t1 + t2 + t3).

(* zenith attenuation Ao + Aw *)
(* utils.py:1631, utils.py:1683 *)
Definition gas_zenith (w : weather) (f : R) : R :=
  gas_Yo w f * gas_ho w f + gas_Yw w f * gas_hw w f.

(* utils.py:1685-1692 *)
Definition pl_gas (w : weather) (fc elev : R) : R :=
  Rabs (gas_zenith w (fc / Rpower 10 9) / sin (deg_2_rad elev)).

(* utils.py:1695-1755, by steps *)
(* effective path length; elev in degrees *)
(* utils.py:1717-1720 *)
Definition scint_path_length (elev : R) : R :=
  2 * 1000 / sqrt ((sin (deg_2_rad elev)) ^ 2 + 2.35 / 10 ^ 4 + sin (deg_2_rad elev)).

(* f in GHz *)
(* utils.py:1722-1728 *)
Definition scint_x (w : weather) (f elev : R) : R :=
  1.22 * (sqrt (w_efficiency w) * w_diameter w) ^ 2 * f / scint_path_length elev.

(* the argument of the square root.  Coq's sqrt is 0 on negative arguments where
   TensorFlow returns NaN: scint_tropo is only meaningful when scint_g2 >= 0. *)
(* utils.py:1729 *)
Definition scint_g2 (w : weather) (f elev : R) : R :=
  let x := scint_x w f elev in
  3.86 * Rpower (x ^ 2 + 1) (11/12) * sin (11/6 * atan (1 / x)) - 7.08 * Rpower x (5/6).

(* utils.py:1702-1740 *)
Definition scint_tropo (w : weather) (f elev : R) : R :=
  let Tc := w_temperature w - 273 in
  let es := 6.1121 * exp (17.502 * Tc / (Tc + 240.97)) in
  let Nwet := 3732 * w_humidity w * es / (Tc + 273) ^ 2 in
  let ref := 3.6 / 10 ^ 3 + Nwet * / 10 ^ 4 in
  let g := sqrt (scint_g2 w f elev) in
  let gx := ref * Rpower f (7/12) * g / Rpower (sin (deg_2_rad elev)) 1.2 in
  let p := 0.01 in
  let ap := - 0.061 * (log10 p) ^ 3 + 0.072 * (log10 p) ^ 2 - 1.71 * log10 p + 3.0 in
  Rabs (ap * gx).

(* utils.py:1745-1754 *)
Definition scint_iono (f : R) : R := 1.1 * Rpower (f / 4) (-1.5) / sqrt 2.

(* utils.py:1695-1755 *)
Definition pl_scint (w : weather) (fc elev : R) : R :=
  let f := fc / Rpower 10 9 in
  if Rleb 6 f then scint_tropo w f elev else scint_iono f.

(* lsp.py:94-118 *)
Definition pl_total (plb plg pls ple : R) : R := plb + plg + pls + ple.

(* utils.py:1955-1962 *)
Definition grav_const : R := 6.6743 * / 10 ^ 11.
(* utils.py:1955-1962 *)
Definition earth_mass : R := 5.972 * 10 ^ 24.
(* utils.py:1955-1962 *)
Definition satellite_speed (h : R) : R :=
  sqrt (grav_const * earth_mass / (earth_radius + h)).

(* utils.py:1964-2000; returns the shifted carrier *)
Definition satellite_doppler_shift (h elev fc : R) : R :=
  satellite_speed h / speed_of_light
  * (earth_radius / (earth_radius + h) * cos (deg_2_rad elev)) * fc.
(* utils.py:1964-1999 *)
Definition compute_stallite_doppler (h elev fc : R) : R :=
  satellite_doppler_shift h elev fc + fc.
