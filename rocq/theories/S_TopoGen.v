(* Vocabulary of the topology generator properties. *)
From Coq Require Import Reals String List Arith ZArith.
From Verif Require Import M_Base M_Geometry M_Scenario M_TopoGen M_Coeff.
Import ListNotations.
Open Scope string_scope.
Open Scope R_scope.

(* draws of a uniform generator *)
Definition unit_draw (u : R) : Prop := 0 <= u < 1.
Record proper_draws (dr : gen_draws) : Prop := {
  pr_base : unit_draw (gd_base dr);
  pr_x : forall b u, unit_draw (gd_x dr b u);
  pr_y : forall b u, unit_draw (gd_y dr b u);
  pr_z : forall b u, unit_draw (gd_z dr b u);
  pr_in : forall b u, unit_draw (gd_in dr b u);
  pr_angle : forall b u, unit_draw (gd_angle dr b u);
  pr_speed : forall b u, unit_draw (gd_speed dr b u) }.

(* Documented defaults: inter-site distance per scenario; LEO satellite at 600 km seen at 80 degrees,
   UTs at 1.5 m, not moving. *)
Inductive default_isd : string -> R -> Prop :=
| isd_dur : default_isd "dur" 200
| isd_urb : default_isd "urb" 500
| isd_sur : default_isd "sur" 5000.

(* v is the caller's value if one was given and the default otherwise *)
Definition resolves (given : option R) (dflt v : R) : Prop :=
  (given = Some v) \/ (given = None /\ v = dflt).

Record resolved (scenario : string) (a : gen_args) (isd h el zmin zmax vmin vmax : R) : Prop := {
  rv_isd : exists d, default_isd scenario d /\ resolves (ga_isd a) d isd;
  rv_h : resolves (ga_height a) 600000 h;
  rv_el : resolves (ga_elev a) 80 el;
  rv_zmin : resolves (ga_min_h a) 1.5 zmin;
  rv_zmax : resolves (ga_max_h a) 1.5 zmax;
  rv_vmin : resolves (ga_min_v a) 0 vmin;
  rv_vmax : resolves (ga_max_v a) 0 vmax }.

(* direction of the axis of a terminal with the given orientation: the image of the x axis *)
Definition boresight (o : vec3) : vec3 := rot_pos o (V3 1 0 0).

(* the point q is the point p turned by the given angle in degrees about the centre c *)
Definition turned_about (c : R * R) (deg : R) (p q : R * R) : Prop :=
  let a := deg * PI / 180 in
  fst q - fst c = cos a * (fst p - fst c) - sin a * (snd p - snd c) /\
  snd q - snd c = sin a * (fst p - fst c) + cos a * (snd p - snd c).

(* the axis o of a terminal at (x, y) has elevation el and azimuth towards (dir = 1) or away from (dir = -1) the origin *)
Definition looks (dir el x y : R) (o : vec3) : Prop :=
  let r := sqrt (x * x + y * y) in
  vz (boresight o) = sin (el * PI / 180) /\
  r * vx (boresight o) = dir * cos (el * PI / 180) * (0 - x) /\
  r * vy (boresight o) = dir * cos (el * PI / 180) * (0 - y).

(* squared distance in the plane *)
Definition dist2 (p q : R * R) : R := Rsqr (fst p - fst q) + Rsqr (snd p - snd q).

(* the keyword arguments of a set_topology call that passes on a generated topology *)
Definition handed_over (t : topology) (ut uo : tens vec3) (args : topo_args) : Prop :=
  t_batch ut = t_batch (u_loc (tp_uts t)) /\ t_num ut = t_num (u_loc (tp_uts t)) /\
  (forall b u, t_at (u_loc (tp_uts t)) b u = Some (t_at ut b u)) /\
  (forall b u, t_at (u_orient (tp_uts t)) b u = Some (t_at uo b u)) /\
  a_ut_loc args = Some ut /\ a_ut_ori args = Some uo /\ a_bs_loc args = Some (tp_bs_loc t) /\
  a_bs_ori args = Some (tp_bs_orient t) /\ a_ut_vel args = Some (u_vel (tp_uts t)) /\
  a_in args = Some (u_in (tp_uts t)).
