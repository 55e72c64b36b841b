(* Distances and LoS angles.
   Models /repo/OpenNTN/system_level_scenario.py:779-844 (_compute_distance_2d_3d_and_angles),
   :846-862 (_sample_los), :864-884 (_sample_indoor_distance)
   and /repo/OpenNTN/utils.py:454-535 (angle helpers,
   sample_bernoulli). *)
From Coq Require Import Reals String List Bool Arith.
From Verif Require Import M_Base M_Params.
Import ListNotations.
Open Scope R_scope.

(* A tensor of shape [batch size, number of nodes] (+ an inner shape held in A).
   Entries outside the shape are meaningless. *)
(* the arguments of system_level_scenario.py:501-507 *)
Record tens (A : Type) := T { t_batch : nat; t_num : nat; t_at : nat -> nat -> A }.
Arguments T {A} t_batch t_num t_at.
Arguments t_batch {A} t.
Arguments t_num {A} t.
Arguments t_at {A} t.

(* a [batch, BS, UT] tensor *)
(* e.g. system_level_scenario.py:799-800 *)
Definition grid (A : Type) := nat -> nat -> nat -> A.

(* utils.py:454-468, 470-484, 486-500; math.radians is deg_2_rad *)
Definition deg_2_rad (x : R) : R := x * (PI / 180).
(* utils.py:470-484 *)
Definition rad_2_deg (x : R) : R := x * (180 / PI).
(* utils.py:486-500 *)
Definition wrap_angle_0_360 (x : R) : R := fmod x 360.

(* R_E, system_level_scenario.py:808 *)
Definition earth_radius : R := 6371000.

(* system_level_scenario.py:795-800 *)
Definition dist_2d (ut bs : vec3) : R :=
  sqrt (sq (vx ut - vx bs) + sq (vy ut - vy bs)).

(* TR 38.811 eq. 6.6-3; elev in degrees *)
(* system_level_scenario.py:804-813 (TR 38.811 eq. 6.6-3) *)
Definition slant_range (elev h : R) : R :=
  sqrt (earth_radius ^ 2 * (sin (deg_2_rad elev)) ^ 2 + h ^ 2 + 2 * h * earth_radius)
  - earth_radius * sin (deg_2_rad elev).

(* system_level_scenario.py:824, system_level_scenario.py:829 *)
Definition los_aod (ut bs : vec3) : R :=
  wrap_angle_0_360 (rad_2_deg (atan2 (vy ut - vy bs) (vx ut - vx bs))).
(* system_level_scenario.py:825, system_level_scenario.py:830 *)
Definition los_aoa (ut bs : vec3) : R :=
  wrap_angle_0_360 (rad_2_deg (atan2 (vy ut - vy bs) (vx ut - vx bs) + PI)).
(* system_level_scenario.py:826, system_level_scenario.py:831 *)
Definition los_zod (ut bs : vec3) : R :=
  wrap_angle_0_360 (rad_2_deg (atan2 (dist_2d ut bs) (vz ut - vz bs))).
(* system_level_scenario.py:827, system_level_scenario.py:832 *)
Definition los_zoa (ut bs : vec3) : R :=
  wrap_angle_0_360 (rad_2_deg (atan2 (dist_2d ut bs) (vz ut - vz bs) - PI)).

(* everything _compute_distance_2d_3d_and_angles stores after _distance_2d *)
(* system_level_scenario.py:821-844 *)
Record geo := {
  g_d3d : grid R;
  g_aod : grid R; g_aoa : grid R; g_zod : grid R; g_zoa : grid R;
  g_utd : nat -> nat -> nat -> R }.     (* [batch, UT, UT] *)

(* Operands of different batch size do not broadcast; the size-1 broadcasting
   TensorFlow would accept is not modelled (such calls are errors in the model). *)
(* system_level_scenario.py:789-800 *)
Definition distance_2d (ut bs : tens vec3) : res (grid R) :=
  if Nat.eqb (t_batch ut) (t_batch bs) then
    Ok (fun b s u => dist_2d (t_at ut b u) (t_at bs b s))
  else Err (InvalidArgumentError "Incompatible shapes").

(* height_val is row 0 of the BS heights, a vector over the BSs; tf.fill needs a
   scalar, so anything but exactly one BS raises. *)
(* system_level_scenario.py:802-844 *)
Definition distance_3d_and_angles (elev : R) (ut bs : tens vec3) : res geo :=
  if Nat.eqb (t_num bs) 1 && Nat.leb 1 (t_batch bs) then
    let h := vz (t_at bs 0%nat 0%nat) in
    Ok {| g_d3d := fun _ _ _ => slant_range elev h;
          g_aod := fun b s u => los_aod (t_at ut b u) (t_at bs b s);
          g_aoa := fun b s u => los_aoa (t_at ut b u) (t_at bs b s);
          g_zod := fun b s u => los_zod (t_at ut b u) (t_at bs b s);
          g_zoa := fun b s u => los_zoa (t_at ut b u) (t_at bs b s);
          g_utd := fun b u u' => dist_2d (t_at ut b u') (t_at ut b u) |}
  else Err (InvalidArgumentError "tf.fill: value must be a scalar").

(* draw is the uniform sample in [min_2d_in, max_2d_in) = [0,10) *)
(* system_level_scenario.py:864-884 *)
Record indoor_d := {
  i_2d_in : grid R; i_2d_out : grid R; i_3d_in : grid R; i_3d_out : grid R }.

(* system_level_scenario.py:864-884 *)
Definition sample_indoor (d2d d3d : grid R) (ut : tens vec3) (ind : tens bool) (draw : grid R)
  : res indoor_d :=
  if Nat.eqb (t_batch ind) (t_batch ut) && Nat.eqb (t_num ind) (t_num ut) then
    let din := fun b s u => draw b s u * (if t_at ind b u then 1 else 0) in
    let din3 := fun b s u => din b s u / d2d b s u * d3d b s u in
    Ok {| i_2d_in := din;
          i_2d_out := fun b s u => d2d b s u - din b s u;
          i_3d_in := din3;
          i_3d_out := fun b s u => d3d b s u - din3 b s u |}
  else Err (InvalidArgumentError "Incompatible shapes").

(* utils.py:533-534: z < p with z uniform in [0,1) *)
Definition bernoulli (p z : R) : bool := Rltb z p.

(* system_level_scenario.py:846-862 *)
Definition sample_los (requested : option bool) (p : R) (ind : tens bool) (draw : grid R)
  : grid bool :=
  fun b s u =>
    let los := match requested with None => bernoulli p (draw b s u) | Some r => r end in
    los && negb (t_at ind b u).
