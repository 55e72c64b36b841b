(* Binary floating point in the LoS angles, /repo/OpenNTN/system_level_scenario.py:789-832.
   M_Geometry models the same lines with real numbers; here each operation is followed by a rounding.
   The coordinates passed in are numbers of the format.
   Simplified: numbers have no smallest and no largest exponent, and the arc tangent and the square
   root are correctly rounded. *)
From Coq Require Import Reals ZArith.
From Verif Require Import M_Base M_Params M_Geometry M_Float.
Open Scope R_scope.

(* PI: a Python float, converted to the type of the tensor it is added to *)
(* system_level_scenario.py:825, system_level_scenario.py:827 *)
Definition pi_fp (p : Z) : R := rnd p (rnd 53 PI).

(* x*tf.constant(180.0/PI, x.dtype): the quotient is a Python float *)
(* utils.py:484 *)
Definition rad_2_deg_fp (p : Z) (x : R) : R := rnd p (x * rnd p (rnd 53 (180 / rnd 53 PI))).

(* the remainder with the sign of the dividend, which is computed without error *)
(* tf.math.mod in utils.py:500 *)
Definition rem (x y : R) : R :=
  let q := x / y in
  if Rlt_dec q 0 then x + IZR (Int_part (- q)) * y else x - IZR (Int_part q) * y.

(* tf.math.mod of floats: a negative remainder is moved up by the divisor, and the sum is rounded *)
(* utils.py:486-500 *)
Definition wrap_fp (p : Z) (x : R) : R :=
  let r := rem x 360 in if Rlt_dec r 0 then rnd p (r + 360) else r.

(* delta_loc *)
(* system_level_scenario.py:795-796 *)
Definition delta_fp (p : Z) (ut bs : vec3) : vec3 :=
  V3 (rnd p (vx ut - vx bs)) (rnd p (vy ut - vy bs)) (rnd p (vz ut - vz bs)).

(* system_level_scenario.py:799 *)
Definition dist_2d_fp (p : Z) (ut bs : vec3) : R :=
  let d := delta_fp p ut bs in rnd p (sqrt (rnd p (rnd p (sq (vx d)) + rnd p (sq (vy d))))).

(* los_aod and los_zod in radians *)
(* system_level_scenario.py:824 *)
Definition aod_rad_fp (p : Z) (ut bs : vec3) : R := let d := delta_fp p ut bs in rnd p (atan2 (vy d) (vx d)).
(* system_level_scenario.py:826 *)
Definition zod_rad_fp (p : Z) (ut bs : vec3) : R := rnd p (atan2 (dist_2d_fp p ut bs) (vz (delta_fp p ut bs))).

(* the four angles in degrees *)
(* system_level_scenario.py:824, system_level_scenario.py:829 *)
Definition los_aod_fp (p : Z) (ut bs : vec3) : R := wrap_fp p (rad_2_deg_fp p (aod_rad_fp p ut bs)).
(* system_level_scenario.py:825, system_level_scenario.py:830 *)
Definition los_aoa_fp (p : Z) (ut bs : vec3) : R := wrap_fp p (rad_2_deg_fp p (rnd p (aod_rad_fp p ut bs + pi_fp p))).
(* system_level_scenario.py:826, system_level_scenario.py:831 *)
Definition los_zod_fp (p : Z) (ut bs : vec3) : R := wrap_fp p (rad_2_deg_fp p (zod_rad_fp p ut bs)).
(* system_level_scenario.py:827, system_level_scenario.py:832 *)
Definition los_zoa_fp (p : Z) (ut bs : vec3) : R := wrap_fp p (rad_2_deg_fp p (rnd p (zod_rad_fp p ut bs - pi_fp p))).
