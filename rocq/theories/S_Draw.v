(* What a picture of the topology should show. *)
From Coq Require Import Reals String List Bool Arith.
From Verif Require Import M_Base M_Params M_Geometry M_Draw S_Coeff S_Ray.
Import ListNotations.
Open Scope string_scope.
Open Scope list_scope.
Open Scope R_scope.

(* some node of example b has a coordinate of more than 10 km *)
Definition far (t : tens vec3) (b : nat) : Prop :=
  exists i, (i < t_num t)%nat /\ (10000 < vx (t_at t b i) \/ 10000 < vy (t_at t b i) \/ 10000 < vz (t_at t b i)).
(* the nodes are drawn in kilometres if one is far, else in metres; k: length of a metre in the picture *)
Definition drawn_unit (t : tens vec3) (b : nat) (k : R) (name : string) : Prop :=
  (far t b /\ k = / 1000 /\ name = "[km]") \/ (~ far t b /\ k = 1 /\ name = "[m]").

(* the numbered nodes of example b *)
Definition numbered (k : R) (t : tens vec3) (b : nat) : list (vec3 * nat) :=
  map (fun i => (vscale k (t_at t b i), i)) (seq 0 (t_num t)).

(* the extent of points along a coordinate *)
Definition extent (f : vec3 -> R) (l : list vec3) (d : R) : Prop :=
  (forall n m, In n l -> In m l -> f n - f m <= d) /\ exists n m, In n l /\ In m l /\ f n - f m = d.

(* a line one can see *)
Definition visible (l : line) : Prop := exists e, ln_to l = Some e /\ e <> ln_from l.

(* along the direction v, pointing its way, with a tenth of the picture's size as length when the
   picture is a unit cube; dx, dy, dz: extent of the picture *)
Definition along (loc v : vec3) (dx dy dz : R) (colour : string) (l : line) : Prop :=
  exists k, 0 < k /\ ln_from l = loc /\ ln_to l = Some (vadd loc (vscale k v)) /\ ln_colour l = colour /\
    (k * vx v / dx) ^ 2 + (k * vy v / dy) ^ 2 + (k * vz v / dz) ^ 2 = 0.1 ^ 2.

(* the local axes of a node with orientation o: red, green, blue *)
Definition local_axes (loc o : vec3) (dx dy dz : R) (ls : list line) : Prop :=
  exists l1 l2 l3, ls = [l1; l2; l3] /\
    along loc (orient o (V3 1 0 0)) dx dy dz "r" l1 /\
    along loc (orient o (V3 0 1 0)) dx dy dz "g" l2 /\
    along loc (orient o (V3 0 0 1)) dx dy dz "b" l3.

(* ---- arrays ---- *)
(* the stroke drawn for an antenna whose field is slanted by z radians from the vertical *)
Definition mark_fits (m : mark) (z : R) : Prop :=
  match m with Vertical => z = 0 | Horizontal => z = PI / 2 | Turned d => z = d * PI / 180 end.
