(* AntennaElement._compute_gain, /repo/OpenNTN/antenna.py:226-255: gain and directivity of an element
   by summation over a grid of angles. *)
From Coq Require Import Reals Arith.
From Verif Require Import M_Base M_Antenna.
Open Scope R_scope.

(* tf.linspace(a, b, n+1), entry i *)
(* antenna.py:232-233 *)
Definition linspace (a b : R) (n i : nat) : R := a + INR i * ((b - a) / INR n).

(* tf.reduce_max over entries 0 .. n of an axis *)
(* antenna.py:239, antenna.py:249 *)
Fixpoint reduce_max (n : nat) (f : nat -> R) : R :=
  match n with O => f O | S m => Rmax (reduce_max m f) (f (S m)) end.

(* antenna.py:232 *)
Definition grid_theta (i : nat) : R := linspace 0 PI 180 i.
(* antenna.py:233 *)
Definition grid_phi (j : nat) : R := linspace (- PI) PI 360 j.

(* antenna.py:237-238 *)
Definition grid_power (e : element) (i j : nat) : R :=
  sq (fst (field e (grid_theta i) (grid_phi j))) + sq (snd (field e (grid_theta i) (grid_phi j))).

(* reduce_max of a 181 x 361 grid *)
(* antenna.py:239, antenna.py:250 *)
Definition grid_max (u : nat -> nat -> R) : R := reduce_max 180 (fun i => reduce_max 360 (u i)).

(* antenna.py:242-244 *)
Definition grid_radiated (u : nat -> nat -> R) : R :=
  let dtheta := grid_theta 1 - grid_theta 0 in
  let dphi := grid_phi 1 - grid_phi 0 in
  sumR 181 (fun i => sumR 361 (fun j => u i j * sin (grid_theta i) * dtheta * dphi)).

(* antenna.py:226-250: (gain, directivity) in dB *)
Definition compute_gain (e : element) : R * R :=
  let u := grid_power e in
  let gain_db := 10 * log10 (grid_max u) in
  let u_bar := grid_radiated u / (4 * PI) in
  (gain_db, 10 * log10 (grid_max (fun i j => u i j / u_bar))).
