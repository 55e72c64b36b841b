(* The distance between a ground point and a satellite, by the law of cosines in the triangle with
   the centre of the Earth. *)
From Coq Require Import Reals.
Open Scope R_scope.

(* h: height of the satellite above a sphere of radius 6371 km; e: elevation angle in degrees at
   which it is seen; d: its distance *)
Definition satellite_distance (e h d : R) : Prop :=
  0 < d /\ (6371000 + h) ^ 2 = 6371000 ^ 2 + d ^ 2 + 2 * 6371000 * d * sin (e * (PI / 180)).
