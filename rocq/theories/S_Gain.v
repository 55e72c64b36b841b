(* Average power density over the sphere, as a sum over a grid of one degree. *)
From Coq Require Import Reals.
From Verif Require Import M_Base.
Open Scope R_scope.

(* p: power pattern over zenith and azimuth; rings of constant zenith 0, 1, ..., 180 degrees, each with
   azimuths -180, -179, ..., 180 degrees, weighted by the area sin(zenith) (1 degree)^2 *)
Definition mean_over_sphere (p : R -> R -> R) : R :=
  sumR 181 (fun i => sumR 361 (fun j =>
    p (INR i * (PI / 180)) (INR j * (PI / 180) - PI) * sin (INR i * (PI / 180)))) * (PI / 180) ^ 2 / (4 * PI).
