(* What the line-of-sight phase should be: the exact phase of a wave of frequency fc after d metres. *)
From Coq Require Import Reals.
Open Scope R_scope.

(* a carrier in one of the two supported bands *)
Definition supported_carrier (fc : R) : Prop := 1.9e9 <= fc <= 4e9 \/ 19e9 <= fc <= 40e9.

(* radians *)
Definition exact_phase (fc d : R) : R := 2 * PI * d * fc / 299792458.
