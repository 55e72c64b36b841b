(* The positions of the generated UTs in the precision they are computed and stored in.
   Simplified: only the last operation on each coordinate, the sum of the coordinate of the beam
   centre and the displacement of the UT, is rounded; the beam centre and the displacements are draws
   and stand for numbers of the format.  The height is a draw and needs no rounding of a sum. *)
From Coq Require Import Reals ZArith.
From Verif Require Import M_Base M_Params M_Geometry M_TopoGen M_Float.
Open Scope R_scope.

(* x_base+x_dis, y_base+y_dis and the height; p = 24 for precision "single" *)
(* utils.py:607-608, utils.py:954-958 *)
Definition position_fp (p : Z) (v : vec3) : vec3 := V3 (rnd p (vx v)) (rnd p (vy v)) (rnd p (vz v)).

(* the topology with the positions of its UTs in the precision p; orientations, velocities and the
   satellite are left as they are *)
(* utils.py:607-608, utils.py:990-1191 *)
Definition stored_in (p : Z) (t : topology) : topology :=
  let l := u_loc (tp_uts t) in
  {| tp_uts := {| u_loc := T (t_batch l) (t_num l) (fun b u => omap (position_fp p) (t_at l b u));
                  u_orient := u_orient (tp_uts t); u_vel := u_vel (tp_uts t); u_in := u_in (tp_uts t) |};
     tp_bs_loc := tp_bs_loc t; tp_bs_orient := tp_bs_orient t |}.
