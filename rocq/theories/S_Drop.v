(* Small specification for C111: where the UTs of a generated topology are dropped. *)
From Coq Require Import Reals.
From Verif Require Import M_Base M_Geometry M_TopoGen.
Local Open Scope R_scope.

(* p lies above the square of side w with the corner (x0, y0) *)
Definition in_square (x0 y0 w : R) (p : vec3) : Prop := x0 <= vx p < x0 + w /\ y0 <= vy p < y0 + w.

(* d lies in the part [lo, lo + r) of the range of a uniform draw *)
Definition in_part (lo r d : R) : Prop := lo <= d < lo + r.

(* horizontal distance of the beam centre from the point below a satellite at height h seen at el degrees *)
Definition centre_distance (h el : R) : R := h * cos (el * PI / 180) / sin (el * PI / 180).
