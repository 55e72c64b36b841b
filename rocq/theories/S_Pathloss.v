(* Specification vocabulary for the path loss (C43, C58). *)
From Coq Require Import Reals.
From Verif Require Import M_Base.
Open Scope R_scope.

(* free-space loss in dB, distance in metres, carrier in Hz (TR 38.811 eq. 6.6-2) *)
Definition free_space (fc d : R) : R := 32.45 + 20 * (ln (fc / 10 ^ 9) / ln 10) + 20 * (ln d / ln 10).

(* ITU-R P.618 effective path length of the turbulent layer at 1000 m *)
Definition itu_path_length (elev : R) : R :=
  2 * 1000 / (sqrt ((sin (elev * (PI / 180))) ^ 2 + 2.35 / 10 ^ 4) + sin (elev * (PI / 180))).
