(* What a picture of a radiation pattern should show. *)
From Coq Require Import Reals String.
From Verif Require Import M_Base M_Params M_Antenna.
Open Scope R_scope.

(* the power an element radiates in a direction: both components of its field *)
Definition radiated (e : element) (theta phi : R) : R :=
  sq (fst (field e theta phi)) + sq (snd (field e theta phi)).

(* v is the power x in dB; no power is minus infinity *)
Definition in_db (x : R) (v : ext) : Prop :=
  match v with NegInf => x = 0 | Fin y => Rpower 10 (y / 10) = x end.

(* q is the point at distance r in direction (theta, phi) *)
Definition at_distance (r theta phi : R) (q : vec3) : Prop :=
  0 <= r /\ vx q * vx q + vy q * vy q + vz q * vz q = r * r /\
  vz q = r * cos theta /\ vx q = r * (sin theta * cos phi) /\ vy q = r * (sin theta * sin phi).
