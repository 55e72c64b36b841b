(* The scenario object as a state machine driven by set_topology.
   Models /repo/OpenNTN/system_level_scenario.py:107-126 (initial fields), :501-664
   (set_topology) and /repo/OpenNTN/dense_urban_scenario.py:176-260, urban_scenario.py:177-261,
   sub_urban_scenario.py:177-261 (_compute_lsp_log_mean_std; identical bodies). *)
From Coq Require Import Reals String List Bool Arith ZArith.
From Verif Require Import M_Base M_Params M_Geometry M_Pathloss.
Import ListNotations.
Open Scope string_scope.
Open Scope R_scope.

(* ---- LSP statistics, *_scenario.py:_compute_lsp_log_mean_std ---- *)
(* LSP order: 0 DS, 1 ASD, 2 ASA, 3 SF, 4 K, 5 ZSA, 6 ZSD *)

(* where(zsd != -inf, max(-100, zsd), zsd) *)
(* dense_urban_scenario.py:207-208 *)
Definition zsd_floor (m : ext) : ext :=
  match m with NegInf => NegInf | Fin r => Fin (Rmax (-100) r) end.

(* dense_urban_scenario.py:188-216 *)
Definition lsp_log_mean (lp : lparams) (i : nat) : ext :=
  match i with
  | 0%nat => Fin (lp_muDS lp)
  | 1%nat => lp_muASD lp
  | 2%nat => Fin (lp_muASA lp)
  | 3%nat => Fin 0
  | 4%nat => Fin (lp_muK lp / 10)
  | 5%nat => Fin (lp_muZSA lp)
  | _ => zsd_floor (lp_muZSD lp)
  end.

(* dense_urban_scenario.py:218-250 *)
Definition lsp_log_std (lp : lparams) (i : nat) : R :=
  match i with
  | 0%nat => lp_sigmaDS lp
  | 1%nat => lp_sigmaASD lp
  | 2%nat => lp_sigmaASA lp
  | 3%nat => lp_sigmaSF lp / 10
  | 4%nat => lp_sigmaK lp / 10
  | 5%nat => lp_sigmaZSA lp
  | _ => lp_sigmaZSD lp
  end.

(* zod_offset: 0 for LoS; computed with atan, i.e. in radians *)
(* dense_urban_scenario.py:256-260 *)
Definition zod_offset_of (los : bool) (d2d : R) : R :=
  if los then 0 else atan ((35 - 3.5) / d2d) - atan ((35 - 1.5) / d2d).

(* dense_urban_scenario.py:252-260 *)
Record lspstat := {
  ls_col : bool -> lparams;            (* the LoS and the NLoS column in use *)
  ls_mean : nat -> nat -> nat -> nat -> ext;   (* [batch, BS, UT, 7] *)
  ls_std : nat -> nat -> nat -> nat -> R;
  ls_zod_offset : grid R }.

(* dense_urban_scenario.py:176-260 *)
Definition compute_lsp_stat (sc : scenario) (d2d : grid R) (los : grid bool) : res lspstat :=
  cl <- link_column sc true ;;
  cn <- link_column sc false ;;
  let col := fun x : bool => if x then cl else cn in
  Ok {| ls_col := col;
        ls_mean := fun b s u i => lsp_log_mean (col (los b s u)) i;
        ls_std := fun b s u i => lsp_log_std (col (los b s u)) i;
        ls_zod_offset := fun b s u => zod_offset_of (los b s u) (d2d b s u) |}.

(* ---- path losses stored per topology ---- *)
(* system_level_scenario.py:653-660 *)
Record plosses := {
  pl_f : grid R;                       (* free space part, utils.py:1771-1772 *)
  pl_b : grid R; pl_g : grid R; pl_e : grid R; pl_s : grid R }.

(* z_los, z_nlos: standard normal draws of utils.py:1777-1778 *)
Definition compute_pathlosses (sc : scenario) (w : weather) (d3d : grid R) (los : grid bool)
    (z_los z_nlos : grid R) : res plosses :=
  clv <- clutter_loss sc ;; cl <- num_of clv ;;
  slv <- sigma_sf_los sc ;; sl <- num_of slv ;;
  snv <- sigma_sf_nlos sc ;; sn <- num_of snv ;;
  Ok {| pl_f := fun b s u => fspl (sc_fc sc) (d3d b s u);
        pl_b := fun b s u => pl_basic (los b s u) (sc_fc sc) (d3d b s u) cl
                               (sl * z_los b s u) (sn * z_nlos b s u);
        pl_g := fun _ _ _ => pl_gas w (sc_fc sc) (sc_elev sc);
        pl_e := fun _ _ _ => pl_entry;
        pl_s := fun _ _ _ => pl_scint w (sc_fc sc) (sc_elev sc) |}.

(* ---- state ---- *)
(* system_level_scenario.py:117-123 and the derived attributes of system_level_scenario.py:646-660 *)
Record state := {
  s_ut_loc : option (tens vec3);
  s_bs_loc : option (tens vec3);
  s_ut_ori : option (tens vec3);
  s_bs_ori : option (tens vec3);
  s_ut_vel : option (tens vec3);
  s_in : option (tens bool);
  s_req_los : option bool;
  s_weather : option weather;
  s_doppler : bool;
  (* derived attributes; None = attribute not yet set *)
  s_d2d : option (grid R);
  s_geo : option geo;
  s_ind : option indoor_d;
  s_los : option (grid bool);
  s_lsp : option lspstat;
  s_pl : option plosses }.

(* system_level_scenario.py:110-123 *)
Definition init_state (sc : scenario) : state :=
  {| s_ut_loc := None; s_bs_loc := None; s_ut_ori := None; s_bs_ori := None; s_ut_vel := None;
     s_in := None; s_req_los := None; s_weather := None; s_doppler := sc_doppler sc;
     s_d2d := None; s_geo := None; s_ind := None; s_los := None; s_lsp := None; s_pl := None |}.

(* keyword arguments of set_topology; None = not given *)
(* system_level_scenario.py:502-505 *)
Record weather_args := {
  wa_latitude : option R; wa_lwc : option R; wa_rain : option R; wa_pressure : option R;
  wa_temperature : option R; wa_vapor : option R; wa_humidity : option R;
  wa_diameter : option R; wa_efficiency : option R }.

(* system_level_scenario.py:501-508 (nothing passed) *)
Definition no_weather : weather_args :=
  {| wa_latitude := None; wa_lwc := None; wa_rain := None; wa_pressure := None;
     wa_temperature := None; wa_vapor := None; wa_humidity := None; wa_diameter := None;
     wa_efficiency := None |}.

(* system_level_scenario.py:501-508 *)
Record topo_args := {
  a_ut_loc : option (tens vec3);
  a_bs_loc : option (tens vec3);
  a_ut_ori : option (tens vec3);
  a_bs_ori : option (tens vec3);
  a_ut_vel : option (tens vec3);
  a_in : option (tens bool);
  a_los : option bool;
  a_weather : weather_args;
  a_doppler : option bool }.

(* random draws made by one topology update *)
(* system_level_scenario.py:854, system_level_scenario.py:875; utils.py:1777-1778 *)
Record topo_draws := {
  dr_indoor : grid R;     (* uniform in [0,10) *)
  dr_los : grid R;        (* uniform in [0,1) *)
  dr_z_los : grid R;      (* standard normal *)
  dr_z_nlos : grid R }.   (* standard normal *)

(* system_level_scenario.py:618-641 *)
Definition or_else {A} (x : option A) (y : option A) : option A :=
  match x with Some _ => x | None => y end.
(* system_level_scenario.py:573-616 *)
Definition dflt {A} (x : option A) (d : A) : A := match x with Some v => v | None => d end.
(* system_level_scenario.py:545-564 *)
Definition given {A} (x : option A) : bool := match x with Some _ => true | None => false end.

(* system_level_scenario.py:572-616 *)
Definition set_weather (wa : weather_args) : weather :=
  {| w_latitude := dflt (wa_latitude wa) 47;
     w_lwc := dflt (wa_lwc wa) 0.41;
     w_rain := dflt (wa_rain wa) 40;
     w_pressure := dflt (wa_pressure wa) 1020;
     w_temperature := dflt (wa_temperature wa) 273;
     w_vapor := dflt (wa_vapor wa) 7.5;
     w_humidity := dflt (wa_humidity wa) 50;
     w_diameter := dflt (wa_diameter wa) 3.6;
     w_efficiency := dflt (wa_efficiency wa) 0.5 |}.

(* all assignments that precede the update *)
(* system_level_scenario.py:572-644 *)
Definition store_args (st : state) (a : topo_args) : state :=
  {| s_ut_loc := or_else (a_ut_loc a) (s_ut_loc st);
     s_bs_loc := or_else (a_bs_loc a) (s_bs_loc st);
     s_ut_ori := or_else (a_ut_ori a) (s_ut_ori st);
     s_bs_ori := or_else (a_bs_ori a) (s_bs_ori st);
     s_ut_vel := or_else (a_ut_vel a) (s_ut_vel st);
     s_in := or_else (a_in a) (s_in st);
     s_req_los := or_else (a_los a) (s_req_los st);
     s_weather := Some (set_weather (a_weather a));
     s_doppler := dflt (a_doppler a) (s_doppler st);
     s_d2d := s_d2d st; s_geo := s_geo st; s_ind := s_ind st; s_los := s_los st;
     s_lsp := s_lsp st; s_pl := s_pl st |}.

(* system_level_scenario.py:570-641 *)
Definition need_for_update (a : topo_args) : bool :=
  given (a_ut_loc a) || given (a_bs_loc a) || given (a_in a) || given (a_los a).

(* system_level_scenario.py:800 *)
Definition with_d2d (st : state) (x : grid R) : state :=
  {| s_ut_loc := s_ut_loc st; s_bs_loc := s_bs_loc st; s_ut_ori := s_ut_ori st;
     s_bs_ori := s_bs_ori st; s_ut_vel := s_ut_vel st; s_in := s_in st;
     s_req_los := s_req_los st; s_weather := s_weather st; s_doppler := s_doppler st;
     s_d2d := Some x; s_geo := s_geo st; s_ind := s_ind st; s_los := s_los st;
     s_lsp := s_lsp st; s_pl := s_pl st |}.
(* system_level_scenario.py:821-844 *)
Definition with_geo (st : state) (x : geo) : state :=
  {| s_ut_loc := s_ut_loc st; s_bs_loc := s_bs_loc st; s_ut_ori := s_ut_ori st;
     s_bs_ori := s_bs_ori st; s_ut_vel := s_ut_vel st; s_in := s_in st;
     s_req_los := s_req_los st; s_weather := s_weather st; s_doppler := s_doppler st;
     s_d2d := s_d2d st; s_geo := Some x; s_ind := s_ind st; s_los := s_los st;
     s_lsp := s_lsp st; s_pl := s_pl st |}.
(* system_level_scenario.py:861-884 *)
Definition with_ind_los (st : state) (x : indoor_d) (l : grid bool) : state :=
  {| s_ut_loc := s_ut_loc st; s_bs_loc := s_bs_loc st; s_ut_ori := s_ut_ori st;
     s_bs_ori := s_bs_ori st; s_ut_vel := s_ut_vel st; s_in := s_in st;
     s_req_los := s_req_los st; s_weather := s_weather st; s_doppler := s_doppler st;
     s_d2d := s_d2d st; s_geo := s_geo st; s_ind := Some x; s_los := Some l;
     s_lsp := s_lsp st; s_pl := s_pl st |}.
(* dense_urban_scenario.py:252-260; system_level_scenario.py:653-660 *)
Definition with_lsp_pl (st : state) (x : lspstat) (p : plosses) : state :=
  {| s_ut_loc := s_ut_loc st; s_bs_loc := s_bs_loc st; s_ut_ori := s_ut_ori st;
     s_bs_ori := s_bs_ori st; s_ut_vel := s_ut_vel st; s_in := s_in st;
     s_req_los := s_req_los st; s_weather := s_weather st; s_doppler := s_doppler st;
     s_d2d := s_d2d st; s_geo := s_geo st; s_ind := s_ind st; s_los := s_los st;
     s_lsp := Some x; s_pl := Some p |}.

(* Each stage that raises leaves the attributes assigned so far in place.
   The table look-ups of the last stages cannot fail on an accepted scenario (C04), so their
   relative order is not observable; they are grouped. *)
(* system_level_scenario.py:646-660 *)
Definition update_topology (sc : scenario) (st : state) (ut bs : tens vec3) (ind : tens bool)
    (w : weather) (dr : topo_draws) : state * res bool :=
  match distance_2d ut bs with
  | Err e => (st, Err e)
  | Ok d2 =>
    let st := with_d2d st d2 in
    match distance_3d_and_angles (sc_elev sc) ut bs with
    | Err e => (st, Err e)
    | Ok g =>
      let st := with_geo st g in
      match sample_indoor d2 (g_d3d g) ut ind (dr_indoor dr) with
      | Err e => (st, Err e)
      | Ok i =>
        match (pv <- los_probability sc ;; num_of pv) with
        | Err e => (st, Err e)
        | Ok p =>
          let los := sample_los (s_req_los st) p ind (dr_los dr) in
          let st := with_ind_los st i los in
          match compute_lsp_stat sc d2 los with
          | Err e => (st, Err e)
          | Ok ls =>
            match compute_pathlosses sc w (g_d3d g) los (dr_z_los dr) (dr_z_nlos dr) with
            | Err e => (st, Err e)
            | Ok pl => (with_lsp_pl st ls pl, Ok true)
            end
          end
        end
      end
    end
  end.

(* Result: the new state and the returned flag, or the exception. *)
(* system_level_scenario.py:545-664 *)
Definition set_topology (sc : scenario) (st : state) (a : topo_args) (dr : topo_draws)
  : state * res bool :=
  if negb (given (a_ut_loc a) || given (s_ut_loc st)) then
    (st, Err (AssertionError "`ut_loc` is None and was not previously set"))
  else if negb (given (a_bs_loc a) || given (s_bs_loc st)) then
    (st, Err (AssertionError "`bs_loc` is None and was not previously set"))
  else if negb (given (a_in a) || given (s_in st)) then
    (st, Err (AssertionError "`in_state` is None and was not previously set"))
  else if negb (given (a_ut_ori a) || given (s_ut_ori st)) then
    (st, Err (AssertionError "`ut_orientations` is None and was not previously set"))
  else if negb (given (a_bs_ori a) || given (s_bs_ori st)) then
    (st, Err (AssertionError "`bs_orientations` is None and was not previously set"))
  else if negb (given (a_ut_vel a) || given (s_ut_vel st)) then
    (st, Err (AssertionError "`ut_velocities` is None and was not previously set"))
  else
    let st := store_args st a in
    if need_for_update a then
      match s_ut_loc st, s_bs_loc st, s_in st with
      | Some ut, Some bs, Some ind => update_topology sc st ut bs ind (set_weather (a_weather a)) dr
      | _, _, _ => (st, Err (AttributeError "unreachable"))
      end
    else (st, Ok false).

(* a history of calls with their draws *)
(* one call of system_level_scenario.py:501 *)
Definition topo_op := (topo_args * topo_draws)%type.

(* one call of system_level_scenario.py:501 *)
Definition step (sc : scenario) (st : state) (o : topo_op) : state :=
  fst (set_topology sc st (fst o) (snd o)).

(* a history of calls of system_level_scenario.py:501 *)
Definition run (sc : scenario) (st : state) (ops : list topo_op) : state :=
  fold_left (step sc) ops st.
