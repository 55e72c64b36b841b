(* Specification vocabulary for antenna arrays, independent of the construction loops. *)
From Coq Require Import Reals List Arith.
From Verif Require Import M_Base.
Import ListNotations.
Open Scope R_scope.

(* Position of element (i, j) of panel (pi, pj): panels form a rows x cols grid, elements a
   rpp x cpp grid, both centred; i and pi count downwards (-z), j and pj along +y.  Spacings in
   wavelengths. *)
Definition documented_position (rows cols rpp cpp : nat) (pv ph ev eh lambda : R) (pi pj i j : nat) : vec3 :=
  V3 0
     (lambda * ((INR pj - (INR cols - 1) / 2) * ph + (INR j - (INR cpp - 1) / 2) * eh))
     (lambda * (((INR rows - 1) / 2 - INR pi) * pv + ((INR rpp - 1) / 2 - INR i) * ev)).

(* A set of points is centred when its coordinates sum to zero. *)
Definition centred (n : nat) (p : nat -> vec3) : Prop :=
  sumR n (fun k => vx (p k)) = 0 /\ sumR n (fun k => vy (p k)) = 0 /\ sumR n (fun k => vz (p k)) = 0.

(* The two index lists enumerate 0 .. n-1 without repetition or overlap. *)
Definition partitions (n : nat) (l1 l2 : list nat) : Prop :=
  NoDup l1 /\ NoDup l2 /\ (forall k, ~ (In k l1 /\ In k l2)) /\ (forall k, (k < n)%nat <-> In k l1 \/ In k l2).

(* Power of the Bessel pattern at the axis: |J1(x)| <= |x|/2 is the classical bound. *)
Definition bessel_bound (j1 : R -> R) : Prop := forall x, Rabs (j1 x) <= Rabs x / 2.

(* Element gains in dB over angles in degrees: TR 38.901 table 7.3-1 and R1-1802551 table 2. *)
Definition gain_38901 (zenith azimuth : R) : R :=
  8 - Rmin (Rmin (12 * ((zenith - 90) / 65) ^ 2) 30 + Rmin (12 * (azimuth / 65) ^ 2) 30) 30.
Definition gain_dlp (zenith azimuth : R) : R :=
  - Rmin (Rmin (12 * ((zenith - 90) / 90) ^ 2) 25 + Rmin (12 * (azimuth / 90) ^ 2) 25) 25.
