(* Binary floating point in the cluster delays and powers, /repo/OpenNTN/rays.py:257-379.
   M_Rays models the same lines with real numbers; here each operation is followed by a rounding.
   Simplified: numbers have no smallest and no largest exponent (with the parameters of the tables the
   values of active clusters lie between 10^-21 and 10^3, and what becomes of the others is multiplied
   by zero); the logarithm, the exponential and the power are correctly rounded; the scaling of the
   delays of LoS links (rays.py:312-320) and the LoS share of the powers used for the angles
   (rays.py:381-388) are left out. *)
From Coq Require Import Reals ZArith List Arith.
From Verif Require Import M_Base M_Rays M_Float.
Import ListNotations.
Open Scope R_scope.

(* one delay before the normalisation.  rtau: the number in the table, stored in the precision p;
   ds: the delay spread, already a number of that precision *)
(* rays.py:296-305 *)
Definition raw_delay_fp (p : Z) (rtau ds mask x : R) : R :=
  rnd p (rnd p (rnd p (rnd p (- rnd p rtau * ds) * rnd p (ln x)) * rnd p (1 - mask)) + mask).

(* rays.py:307-310 *)
Definition unscaled_delays_fp (p : Z) (n : nat) (rtau ds : R) (mask x : nat -> R) : list R :=
  let raw := map (fun c => raw_delay_fp p rtau ds (mask c) (x c)) (seq 0 n) in
  rsort (map (fun t => rnd p (t - reduce_min raw)) raw).

(* tf.random.normal: a standard normal draw times the standard deviation, plus the mean 0 *)
(* rays.py:364-366 *)
Definition shadow_fp (p : Z) (zeta z : R) : R := rnd p (rnd p (z * rnd p zeta) + 0).

(* rays.py:369-375 *)
Definition power_fp (p : Z) (rtau ds zeta : R) (mask z : nat -> R) (unscaled : list R) (c : nat) : R :=
  rnd p (rnd p (rnd p (exp (rnd p (rnd p (- nth c unscaled 0 * rnd p (rnd p rtau - 1)) / rnd p (rnd p rtau * ds))))
                * rnd p (pow10 (rnd p (- shadow_fp p zeta (z c) / 10))))
         * rnd p (1 - mask c)).

(* tf.reduce_sum adds in an order that TensorFlow chooses *)
(* rays.py:379 *)
Inductive sum_order := Term (i : nat) | Plus (l r : sum_order).

(* the terms an order adds, from left to right *)
(* rays.py:379 *)
Fixpoint terms (t : sum_order) : list nat :=
  match t with Term i => [i] | Plus l r => terms l ++ terms r end.

(* rays.py:379 *)
Fixpoint sum_fp (p : Z) (f : nat -> R) (t : sum_order) : R :=
  match t with Term i => f i | Plus l r => rnd p (sum_fp p f l + sum_fp p f r) end.

(* rays.py:378-379; None: 0/0, as in M_Rays.normalize *)
Definition cluster_powers_fp (p : Z) (n : nat) (rtau ds zeta : R) (mask z : nat -> R) (unscaled : list R)
    (t : sum_order) : option (list R) :=
  let f := power_fp p rtau ds zeta mask z unscaled in
  let total := sum_fp p f t in
  if Req_EM_T total 0 then None else Some (map (fun c => rnd p (f c / total)) (seq 0 n)).
