(* Topology generators of /repo/OpenNTN/utils.py:537-1430.
   Random tensors are explicit draws: a uniform draw between lo and hi is lo + u (hi - lo) for a
   draw u in [0, 1).  Floats are ideal reals; the dtypes are single precision throughout (double
   precision is the subject of M_Dtype). *)
From Coq Require Import Reals String List Bool Arith ZArith Lra.
From Verif Require Import M_Base M_Geometry.
Import ListNotations.
Open Scope string_scope.
Open Scope list_scope.
Open Scope R_scope.

(* tf.random.uniform(minval=lo, maxval=hi) *)
(* utils.py:587-605 *)
Definition uniform (lo hi u : R) : R := lo + u * (hi - lo).

(* tf.math.sqrt: NaN (None) for a negative argument *)
(* utils.py:586-588 *)
Definition osqrt (x : R) : option R := if Rlt_dec x 0 then None else Some (sqrt x).
(* tf.math.atan(y / x): the quotient by 0 is an infinity, or NaN for 0/0.  The zero is taken to be
   +0, as an exact cancellation gives. *)
(* utils.py:985 *)
Definition atan_div (y x : R) : option R :=
  if Req_EM_T x 0 then
    if Rlt_dec 0 y then Some (PI / 2) else if Rlt_dec y 0 then Some (- (PI / 2)) else None
  else Some (atan (y / x)).
(* NaN propagates through utils.py:585-610 *)
Definition omap {A B} (f : A -> B) (o : option A) : option B := match o with Some a => Some (f a) | None => None end.

(* what one call of the generator draws; side is drawn and never used (utils.py:591-595) *)
Record gen_draws := {
  gd_base : R;                                    (* utils.py:587, shape [1] *)
  gd_side : nat -> nat -> R;                      (* utils.py:591-593 *)
  gd_x : nat -> nat -> R; gd_y : nat -> nat -> R; (* utils.py:598-605 *)
  gd_sector : nat -> nat -> Z;                    (* utils.py:946, 0, 1 or 2 *)
  gd_z : nat -> nat -> R;                         (* utils.py:954 *)
  gd_in : nat -> nat -> R;                        (* utils.py:964 *)
  gd_angle : nat -> nat -> R; gd_speed : nat -> nat -> R }.   (* utils.py:968-975 *)

(* drop_uts_in_sector: the beam centre utils.py:585-588 *)
Definition slant_distance (bs_height elevation : R) : R := bs_height / sin (deg_2_rad elevation).
(* utils.py:585-588 *)
Definition beam_centre (bs_height elevation : R) (dr : gen_draws) : option R * option R :=
  let d := slant_distance bs_height elevation in
  let far := osqrt (sq d - sq bs_height) in
  let x := omap (fun m => uniform 0 m (gd_base dr)) far in
  (x, match x with Some xv => osqrt (sq d - sq bs_height - sq xv) | None => None end).
(* utils.py:598-610; result [batch, UT, 2] *)
Definition drop_uts_in_sector (bs_height elevation isd : R) (dr : gen_draws) (b u : nat) : option R * option R :=
  let '(xb, yb) := beam_centre bs_height elevation dr in
  (omap (fun x => x + uniform (- isd / 2) (isd / 2) (gd_x dr b u)) xb,
   omap (fun y => y + uniform (- isd / 2) (isd / 2) (gd_y dr b u)) yb).

(* set_3gpp_scenario_parameters utils.py:612-768; the defaults utils.py:709-747 *)
Record gen_args := {
  ga_isd : option R; ga_height : option R; ga_elev : option R; ga_min_h : option R; ga_max_h : option R;
  ga_indoor : option R; ga_min_v : option R; ga_max_v : option R }.
(* utils.py:709-747 *)
Record gen_params := {
  gp_isd : R; gp_height : R; gp_elev : R; gp_min_h : R; gp_max_h : R; gp_indoor : R; gp_min_v : R; gp_max_v : R }.
(* utils.py:709-747 *)
Definition default_scenario_par (scenario : string) : option gen_params :=
  if string_dec scenario "dur" then
    Some {| gp_isd := 200; gp_height := 600000; gp_elev := 80; gp_min_h := 1.5; gp_max_h := 1.5;
            gp_indoor := 0; gp_min_v := 0; gp_max_v := 0 |}
  else if string_dec scenario "urb" then
    Some {| gp_isd := 500; gp_height := 600000; gp_elev := 80; gp_min_h := 1.5; gp_max_h := 1.5;
            gp_indoor := 0; gp_min_v := 0; gp_max_v := 0 |}
  else if string_dec scenario "sur" then
    Some {| gp_isd := 5000; gp_height := 600000; gp_elev := 80; gp_min_h := 1.5; gp_max_h := 1.5;
            gp_indoor := 0; gp_min_v := 0; gp_max_v := 0 |}
  else None.
(* utils.py:750-768 *)
Definition or_default (o : option R) (d : R) : R := match o with Some v => v | None => d end.
(* assertion utils.py:693-694, utils.py:750-768 *)
Definition set_3gpp_scenario_parameters (scenario : string) (a : gen_args) : res gen_params :=
  match default_scenario_par scenario with
  | None => Err (AssertionError "`scenario` must be one of 'urb', 'dur', 'sur'")
  | Some d =>
      Ok {| gp_isd := or_default (ga_isd a) (gp_isd d);
            gp_height := or_default (ga_height a) (gp_height d);
            gp_elev := or_default (ga_elev a) (gp_elev d);
            gp_min_h := or_default (ga_min_h a) (gp_min_h d);
            gp_max_h := or_default (ga_max_h a) (gp_max_h d);
            gp_indoor := or_default (ga_indoor a) (gp_indoor d);
            gp_min_v := or_default (ga_min_v a) (gp_min_v d);
            gp_max_v := or_default (ga_max_v a) (gp_max_v d) |}
  end.

(* relocate_uts utils.py:812-841; one UT *)
Definition sector_angle (sector : Z) : R := IZR sector * 2 * PI / 3.
(* utils.py:812-841 *)
Definition relocate (sector : Z) (cell p : R * R) : R * R :=
  let a := sector_angle sector in
  (cos a * fst p - sin a * snd p + fst cell, sin a * fst p + cos a * snd p + snd cell).
(* the [batch, UT, 2] version; sector_id and cell_loc after broadcasting *)
(* utils.py:812-841 *)
Definition relocate_uts (loc : nat -> nat -> R * R) (sector : nat -> nat -> Z) (cell : nat -> nat -> R * R)
    (b u : nat) : R * R := relocate (sector b u) (cell b u) (loc b u).

(* NaN coordinates stay NaN under the rotation *)
(* utils.py:812-841 *)
Definition opair (p : option R * option R) : option (R * R) :=
  match p with (Some x, Some y) => Some (x, y) | _ => None end.

(* generate_uts_topology utils.py:845-988.  A UT with a NaN position, or with a bearing that is NaN, has None
   in the respective tensor. *)
Record uts := {
  u_loc : tens (option vec3); u_orient : tens (option vec3); u_vel : tens vec3; u_in : tens bool }.
(* utils.py:845-988 *)
Definition generate_uts_topology (batch num_ut : nat) (drop_area : string) (cell : nat -> nat -> R * R)
    (p : gen_params) (dr : gen_draws) : res uts :=
  if negb ((drop_area =? "sector") || (drop_area =? "cell")) then
    Err (AssertionError "Drop area must be either 'sector' or 'cell'")
  else
    (* utils.py:943-952 *)
    let sectors := if drop_area =? "sector" then (fun _ _ => 0%Z) else gd_sector dr in
    let xy b u := omap (relocate (sectors b u) (cell b u))
                       (opair (drop_uts_in_sector (gp_height p) (gp_elev p) (gp_isd p) dr b u)) in
    (* utils.py:954-959 *)
    let z b u := uniform (gp_min_h p) (gp_max_h p) (gd_z dr b u) in
    (* utils.py:963-965: the indoor probability is overwritten with 0 *)
    let in_state b u := Rltb (gd_in dr b u) 0 in
    (* utils.py:968-979 *)
    let ang b u := uniform (- PI) PI (gd_angle dr b u) in
    let speed b u := uniform (gp_min_v p) (gp_max_v p) (gd_speed dr b u) in
    (* utils.py:982-986 *)
    let tilt := deg_2_rad (gp_elev p + 180) in
    let slant := deg_2_rad (gp_elev p + 90) in
    let bearing b u := match xy b u with Some q => atan_div (snd q) (fst q) | None => None end in
    Ok {| u_loc := T batch num_ut (fun b u => omap (fun q => V3 (fst q) (snd q) (z b u)) (xy b u));
          u_orient := T batch num_ut (fun b u => omap (fun a => V3 a tilt slant) (bearing b u));
          u_vel := T batch num_ut (fun b u => V3 (speed b u * cos (ang b u)) (speed b u * sin (ang b u)) 0);
          u_in := T batch num_ut in_state |}.

(* gen_single_sector_topology utils.py:990-1191 *)
Record topology := {
  tp_uts : uts; tp_bs_loc : tens vec3; tp_bs_orient : tens vec3 }.
(* utils.py:990-1191 *)
Definition gen_single_sector_topology (batch num_ut : nat) (scenario : string) (a : gen_args) (dr : gen_draws)
    : res topology :=
  match set_3gpp_scenario_parameters scenario a with
  | Err e => Err e
  | Ok p =>
      match generate_uts_topology batch num_ut "sector" (fun _ _ => (0, 0)) p dr with
      | Err e => Err e
      | Ok us =>
          Ok {| tp_uts := us;
                tp_bs_loc := T batch 1 (fun _ _ => V3 0 0 (gp_height p));             (* utils.py:1162-1164 *)
                tp_bs_orient := T batch 1 (fun _ _ => V3 0 (0.5 * PI) 0) |}           (* utils.py:1167-1172 *)
      end
  end.

(* gen_single_sector_topology_interferers utils.py:1194-1430.  The arguments of the parameter function are
   shifted (utils.py:1352-1361); all of them are optional numbers, taken to be tensors (a quotient by 0 at utils.py:1377 does not raise), so
   this does not fail.  The first call of
   generate_uts_topology (utils.py:1383-1394) evaluates the name `dtype`, which is bound nowhere in the
   module or the function: NameError before anything is generated. *)
Definition gen_single_sector_topology_interferers (batch num_ut num_interferer : nat) (scenario : string)
    (min_bs_ut_dist isd bs_height min_ut_height max_ut_height indoor min_v max_v : option R)
    : res topology :=
  match set_3gpp_scenario_parameters scenario
          {| ga_isd := min_bs_ut_dist; ga_height := isd; ga_elev := bs_height; ga_min_h := min_ut_height;
             ga_max_h := max_ut_height; ga_indoor := indoor; ga_min_v := min_v; ga_max_v := max_v |} with
  | Err e => Err e
  | Ok _ => Err (NameError "dtype")
  end.
