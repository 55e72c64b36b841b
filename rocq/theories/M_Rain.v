(* Rain and cloud attenuation.  Models /repo/OpenNTN/utils.py:1790-1952
   (compute_pathloss_additional), called by _compute_pathloss_additional of the three scenarios
   (urban_scenario.py:272-273, sub_urban_scenario.py:272-273, dense_urban_scenario.py:271-272).
   The call in set_topology is commented out (system_level_scenario.py:663).
   The carrier is a TensorFlow scalar, the other inputs are Python numbers; functions of the math
   module convert a tensor to a Python number, which succeeds for tensors with one element only.
   A math.exp that overflows raises OverflowError; here exp never overflows. *)
From Coq Require Import Reals String List Bool Arith.
From Verif Require Import M_Base M_Params M_Geometry M_Pathloss M_Scenario.
Import ListNotations.
Open Scope R_scope.

(* ---- cloud attenuation ---- *)
(* utils.py:1799 *)
Definition cloud_theta (T : R) : R := 300 / T.
(* utils.py:1800 *)
Definition cloud_fp (theta : R) : R := 20.09 - 142 * (theta - 1) + 294 * (theta - 1) ^ 2.
(* utils.py:1801 *)
Definition cloud_fs (theta : R) : R := 590 - 1500 * (theta - 1).
(* utils.py:1805 *)
Definition cloud_e0 (theta : R) : R := 77.6 + 103.3 * (theta - 1).
(* utils.py:1808 *)
Definition cloud_eta2 (f theta : R) : R :=
  let fp := cloud_fp theta in let fs := cloud_fs theta in
  f / fp * ((cloud_e0 theta - 5.48) / (1 + (f / fp) ^ 2)) + f / fs * ((5.48 - 3.51) / (1 + (f / fs) ^ 2)).
(* utils.py:1809 *)
Definition cloud_eta1 (f theta : R) : R :=
  let fp := cloud_fp theta in let fs := cloud_fs theta in
  (cloud_e0 theta - 5.48) / (1 + (f / fp) ^ 2) + (5.48 - 3.51) / (1 + (f / fs) ^ 2) + 3.51.
(* utils.py:1810-1814; division by zero of a tensor is inf or nan in TensorFlow, not an exception:
   the value is only meaningful where cloud_fp, cloud_fs and cloud_eta2 are not zero *)
Definition cloud_kl (f theta : R) : R :=
  let n := (2 + cloud_eta1 f theta) / cloud_eta2 f theta in
  0.819 * f / (cloud_eta2 f theta * (1 + n ^ 2)).
(* utils.py:1817-1818 *)
Definition cloud_att (w : weather) (f elev : R) : R :=
  w_lwc w * cloud_kl f (cloud_theta (w_temperature w)) / sin (deg_2_rad elev).

(* ---- rain: the frequency dependent constants ---- *)
(* one term of the sums, (a, b, c) its constants; utils.py:1842 *)
Definition rain_term (x : R) (t : R * R * R) : R :=
  let '(a, b, c) := t in a * exp (- ((x - b) / c) ^ 2).
(* the loops and the line after each, x = log10 f; utils.py:1841-1845 *)
Definition rain_sum (ts : list (R * R * R)) (m d x : R) : R :=
  fold_left (fun s t => s + rain_term x t) ts 0 + m * x + d.
(* utils.py:1834-1838 *)
Definition kH_terms : list (R * R * R) :=
  [(-5.33980, -0.10008, 1.13098); (-0.35351, 1.26970, 0.45400);
   (-0.23789, 0.86036, 0.15354); (-0.94158, 0.64552, 0.16817)].
(* utils.py:1854-1858 *)
Definition kV_terms : list (R * R * R) :=
  [(-3.80595, 0.56934, 0.81061); (-3.44965, -0.22911, 0.51059);
   (-0.39902, 0.73042, 0.11899); (0.50167, 1.07319, 0.27195)].
(* utils.py:1874-1878 *)
Definition aH_terms : list (R * R * R) :=
  [(-0.14318, 1.82442, -0.55187); (0.29591, 0.77564, 0.19822); (0.32177, 0.63773, 0.13164);
   (-5.37610, -0.96230, 1.47828); (16.1721, -3.29980, 3.43990)].
(* utils.py:1894-1898 *)
Definition aV_terms : list (R * R * R) :=
  [(-0.07771, 2.33840, -0.76284); (0.56727, 0.95545, 0.54039); (-0.20238, 1.14520, 0.26809);
   (-48.2991, 0.791669, 0.116226); (48.5833, 0.791459, 0.116479)].
(* utils.py:1841-1848 *)
Definition rain_kH (x : R) : R := pow10 (rain_sum kH_terms (-0.18961) 0.71147 x).
(* utils.py:1861-1868 *)
Definition rain_kV (x : R) : R := pow10 (rain_sum kV_terms (-0.16398) 0.63297 x).
(* utils.py:1881-1888 *)
Definition rain_aH (x : R) : R := rain_sum aH_terms 0.67849 (-1.95537) x.
(* utils.py:1901-1908 *)
Definition rain_aV (x : R) : R := rain_sum aV_terms (-0.053739) 0.83433 x.
(* utils.py:1910-1917; x: log10 of the carrier in GHz, e: elevation in radians *)
Definition rain_k (x e : R) : R :=
  let y2 := cos e ^ 2 * cos (2 * 45 * PI / 180) in
  (rain_kH x + rain_kV x + (rain_kH x - rain_kV x) * y2) / 2.
(* utils.py:1910-1918 *)
Definition rain_a (x e : R) : R :=
  let y2 := cos e ^ 2 * cos (2 * 45 * PI / 180) in
  (rain_kH x * rain_aH x + rain_kV x * rain_aV x + (rain_kH x * rain_aH x - rain_kV x * rain_aV x) * y2)
    / (2 * rain_k x e).
(* utils.py:1919-1923: specific attenuation at the fixed rain rate 40 (not the rain rate of the
   topology) *)
Definition rain_yr (x e : R) : R := rain_k x e * Rpower 40 (rain_a x e).

(* math.sqrt raises on negative arguments, e.g. utils.py:1927 *)
Definition py_sqrt (x : R) : res R :=
  if Rltb x 0 then Err (ValueError "math domain error") else Ok (sqrt x).

(* ---- the whole routine for one station height hs; one: the height is a tensor ---- *)
(* utils.py:1826-1948.  Division by lg * hrf = 0: a Python division raises, a tensor division gives
   an infinity, for which math.tan raises. *)
Definition rain_att (w : weather) (f elev hs : R) (tensor : bool) : res R :=
  let x := log10 f in
  let hr := 5 - 0.075 * (w_latitude w - 23) in
  let e := elev * PI / 180 in
  let ls := (hr - hs) / sin e in
  let lg := ls / 1000 * cos e in
  let yr := rain_yr x e in
  let m1 := lg * yr / f in
  let m2 := 0.38 * (1 - exp (- 2 * lg)) in
  r <- py_sqrt (m1 - m2) ;;
  let hrf := 1 / (1 + 0.78 * r) in
  if Req_EM_T (lg * hrf) 0 then
    Err (if tensor then ValueError "math domain error" else ZeroDivisionError "float division by zero")
  else
    let z := tan ((hr - hs) / (lg * hrf) * PI / 180) in
    let lr := if Rltb e z then lg * hrf / cos e else ls in
    q <- py_sqrt (lr * yr) ;;
    s <- py_sqrt (sin e) ;;
    let vrf := 1 / (1 + s * (31 * (1 - exp (- e)) * (q / f ^ 2) - 0.45)) in
    Ok (Rabs (lr * vrf * yr)).

(* utils.py:1790-1952: the attenuation stored for every link.  bs: the station locations *)
Definition pathloss_additional (sc : scenario) (st : state) : res R :=
  match s_weather st with
  | None => Err (AttributeError "_temperature")
  | Some w =>
      let f := sc_fc sc / 10 ^ 9 in
      if Req_EM_T (w_temperature w) 0 then Err (ZeroDivisionError "division by zero")
      else
        let cloud := cloud_att w f (sc_elev sc) in
        rain <- (if String.eqb (sc_dir sc) "downlink" then
                   match s_bs_loc st with
                   | None => Err (TypeError "'NoneType' object is not subscriptable")
                   | Some bs =>
                       if Nat.eqb (t_batch bs * t_num bs) 1
                       then rain_att w f (sc_elev sc) (vz (t_at bs 0 0)) true
                       else Err (TypeError "only size-1 arrays can be converted to Python scalars")
                   end
                 else rain_att w f (sc_elev sc) 0 false) ;;
        match s_los st with
        | None => Err (AttributeError "los")
        | Some _ => Ok (rain + cloud)
        end
  end.
