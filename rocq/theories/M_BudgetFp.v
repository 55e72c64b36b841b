(* Binary floating point in the power budget of a link: the free-space path loss
   /repo/OpenNTN/utils.py:1765-1784, the sum of the losses /repo/OpenNTN/lsp.py:107-118 and the gain of
   /repo/OpenNTN/system_level_channel.py:415-429.  M_Pathloss and M_Channel model the same lines with real
   numbers; here each operation is followed by a rounding.
   Simplified: numbers have no smallest and no largest exponent (the values met here lie between 10^-33 and
   10^11); the logarithm, the power and the square root are correctly rounded; the shadow fading draw, the
   clutter loss, the gas loss, the scintillation loss and the distance are numbers already stored in the
   precision p. *)
From Coq Require Import Reals ZArith.
From Verif Require Import M_Base M_Float.
Open Scope R_scope.

(* self._carrier_frequency/(10**9), a tensor divided by a Python integer *)
(* utils.py:1768 *)
Definition carrier_ghz_fp (p : Z) (fc : R) : R := rnd p (rnd p fc / rnd p (10 ^ 9)).

(* sionna.phy.utils.log10: the quotient of two natural logarithms *)
(* utils.py:1771 *)
Definition log10_fp (p : Z) (x : R) : R := rnd p (rnd p (ln x) / rnd p (ln 10)).

(* utils.py:1771 *)
Definition fspl_fp (p : Z) (fc d : R) : R :=
  rnd p (rnd p (rnd p 32.45 + rnd p (20 * log10_fp p (carrier_ghz_fp p fc))) + rnd p (20 * log10_fp p d)).

(* utils.py:1780-1782 *)
Definition pl_basic_fp (p : Z) (los : bool) (fc d cl sf_los sf_nlos : R) : R :=
  if los then rnd p (fspl_fp p fc d + sf_los) else rnd p (rnd p (fspl_fp p fc d + sf_nlos) + cl).

(* the entry loss is 0 *)
(* lsp.py:118 *)
Definition pl_total_fp (p : Z) (plb plg pls : R) : R := rnd p (rnd p (rnd p (plb + plg) + pls) + 0).

(* sf: the shadow fading, 1 if it is disabled *)
(* system_level_channel.py:425-426 *)
Definition gain_fp (p : Z) (pl sf : R) : R :=
  rnd p (rnd p (pow10 (rnd p (- pl / 20))) * rnd p (sqrt sf)).
