(* The read side of the scenario object: the public properties of system_level_scenario.py and
   of the three scenario classes, and the outdoor-to-indoor losses of lsp.py:408-521 (which
   read the same properties and are called from nowhere).
   Left out: ut_array and bs_array (the array objects are not part of the scenario record),
   average_street_width and average_building_height (in M_Objects.v). *)
From Coq Require Import Reals String List Bool Arith ZArith.
From Verif Require Import M_Base M_Params M_Geometry M_Pathloss M_Scenario M_Rays.
Import ListNotations.
Open Scope string_scope.
Open Scope list_scope.
Open Scope R_scope.

(* what a property returns; the kinds of the attributes set at system_level_scenario.py:70-123,
   system_level_scenario.py:573-644, system_level_scenario.py:799-884 *)
Inductive pyv :=
| VNone | VBool (b : bool) | VStr (s : string) | VReal (r : R) | VNat (n : nat)
| VEntry (p : pval)                               (* an entry of a parameter table *)
| VPts (t : tens vec3) | VMask (t : tens bool) | VRow (t : tens R)
| VGrid (g : grid R) | VGridB (g : grid bool)     (* [batch, BS, UT] *)
| VSquare (g : nat -> nat -> nat -> R)            (* [batch, UT, UT] *)
| VMean (m : nat -> nat -> nat -> nat -> ext) | VStd (m : nat -> nat -> nat -> nat -> R).

(* return self._x where __init__ stored None, system_level_scenario.py:117-122 *)
Definition stored {A} (w : A -> pyv) (x : option A) : res pyv :=
  Ok (match x with Some a => w a | None => VNone end).

(* return self._x where nothing is stored before the first update, e.g.
   system_level_scenario.py:231, system_level_scenario.py:238 *)
Definition derived {A} (name : string) (w : A -> pyv) (x : option A) : res pyv :=
  match x with
  | Some a => Ok (w a)
  | None => Err (AttributeError ("object has no attribute '" ++ name ++ "'"))
  end.

(* tf.shape(None), system_level_scenario.py:159-173 *)
Definition shape_of {A B} (f : tens A -> B) (w : B -> pyv) (x : option (tens A)) : res pyv :=
  match x with
  | Some t => Ok (w (f t))
  | None => Err (ValueError "None values not supported.")
  end.

(* None[:,:,2], system_level_scenario.py:175-183 *)
Definition heights_of (x : option (tens vec3)) : res pyv :=
  match x with
  | Some t => Ok (VRow (T (t_batch t) (t_num t) (fun b i => vz (t_at t b i))))
  | None => Err (TypeError "'NoneType' object is not subscriptable")
  end.

(* system_level_scenario.py:128-497, dense_urban_scenario.py:103-140 and siblings: the body of
   every property, by name *)
Definition getters : list (string * (scenario -> state -> res pyv)) :=
  [ ("carrier_frequency", fun sc _ => Ok (VReal (sc_fc sc)));
    ("direction", fun sc _ => Ok (VStr (sc_dir sc)));
    ("pathloss_enabled", fun sc _ => Ok (VBool (sc_pathloss sc)));
    ("shadow_fading_enabled", fun sc _ => Ok (VBool (sc_shadow sc)));
    ("lambda_0", fun sc _ => Ok (VReal (sc_lambda sc)));
    ("elevation_angle", fun sc _ => Ok (VReal (sc_elev sc)));
    ("batch_size", fun _ st => shape_of t_batch VNat (s_ut_loc st));
    ("num_ut", fun _ st => shape_of t_num VNat (s_ut_loc st));
    ("num_bs", fun _ st => shape_of t_num VNat (s_bs_loc st));
    ("h_ut", fun _ st => heights_of (s_ut_loc st));
    ("h_bs", fun _ st => heights_of (s_bs_loc st));
    ("ut_loc", fun _ st => stored VPts (s_ut_loc st));
    ("bs_loc", fun _ st => stored VPts (s_bs_loc st));
    ("ut_orientations", fun _ st => stored VPts (s_ut_ori st));
    ("bs_orientations", fun _ st => stored VPts (s_bs_ori st));
    ("ut_velocities", fun _ st => stored VPts (s_ut_vel st));
    ("indoor", fun _ st => stored VMask (s_in st));
    ("los", fun _ st => derived "_los" VGridB (s_los st));
    ("distance_2d", fun _ st => derived "_distance_2d" VGrid (s_d2d st));
    ("distance_2d_in", fun _ st => derived "_distance_2d_in" (fun i => VGrid (i_2d_in i)) (s_ind st));
    ("distance_2d_out", fun _ st => derived "_distance_2d_out" (fun i => VGrid (i_2d_out i)) (s_ind st));
    ("distance_3d", fun _ st => derived "_distance_3d" (fun g => VGrid (g_d3d g)) (s_geo st));
    ("distance_3d_in", fun _ st => derived "_distance_3d_in" (fun i => VGrid (i_3d_in i)) (s_ind st));
    ("distance_3d_out", fun _ st => derived "_distance_3d_out" (fun i => VGrid (i_3d_out i)) (s_ind st));
    ("matrix_ut_distance_2d", fun _ st => derived "_matrix_ut_distance_2d" (fun g => VSquare (g_utd g)) (s_geo st));
    ("los_aod", fun _ st => derived "_los_aod" (fun g => VGrid (g_aod g)) (s_geo st));
    ("los_aoa", fun _ st => derived "_los_aoa" (fun g => VGrid (g_aoa g)) (s_geo st));
    ("los_zod", fun _ st => derived "_los_zod" (fun g => VGrid (g_zod g)) (s_geo st));
    ("los_zoa", fun _ st => derived "_los_zoa" (fun g => VGrid (g_zoa g)) (s_geo st));
    ("los_probability", fun sc st =>
        v <- los_probability sc ;; p <- num_of v ;;
        derived "_distance_2d_out" (fun _ => VGrid (fun _ _ _ => p)) (s_ind st));
    ("min_2d_in", fun _ _ => Ok (VReal 0));
    ("max_2d_in", fun _ _ => Ok (VReal 10));
    ("lsp_log_mean", fun _ st => derived "_lsp_log_mean" (fun l => VMean (ls_mean l)) (s_lsp st));
    ("lsp_log_std", fun _ st => derived "_lsp_log_std" (fun l => VStd (ls_std l)) (s_lsp st));
    ("rays_per_cluster", fun _ _ => Ok (VNat rays_per_cluster));
    ("zod_offset", fun _ st => derived "_zod_offset" (fun l => VGrid (ls_zod_offset l)) (s_lsp st));
    ("num_clusters_los", fun sc _ => v <- num_clusters_los sc ;; Ok (VEntry v));
    ("num_clusters_nlos", fun sc _ => v <- num_clusters_nlos sc ;; Ok (VEntry v));
    ("num_clusters_max", fun sc _ =>
        a <- num_clusters_los sc ;; b <- num_clusters_nlos sc ;;
        x <- int_of a ;; y <- int_of b ;; Ok (VEntry (PInt (Z.max x y))));
    ("basic_pathloss", fun _ st => derived "_pl_b" (fun p => VGrid (pl_b p)) (s_pl st));
    ("gas_pathloss", fun _ st => derived "_pl_g" (fun p => VGrid (pl_g p)) (s_pl st));
    ("scintillation_pathloss", fun _ st => derived "_pl_s" (fun p => VGrid (pl_s p)) (s_pl st));
    ("entry_pathloss", fun _ st => derived "_pl_e" (fun p => VGrid (pl_e p)) (s_pl st));
    ("additional_pathloss", fun _ _ => derived "_pl_a" VGrid None);
    ("free_space_pathloss", fun _ st => derived "_fspl" (fun p => VGrid (pl_f p)) (s_pl st));
    ("latitude", fun _ st => derived "_latitude" (fun w => VReal (w_latitude w)) (s_weather st));
    ("lwc", fun _ st => derived "_lwc" (fun w => VReal (w_lwc w)) (s_weather st));
    ("rain_rate", fun _ st => derived "_rain_rate" (fun w => VReal (w_rain w)) (s_weather st));
    ("atmospheric_pressure", fun _ st => derived "_atmospheric_pressure" (fun w => VReal (w_pressure w)) (s_weather st));
    ("temperature", fun _ st => derived "_temperature" (fun w => VReal (w_temperature w)) (s_weather st));
    ("water_vapor_density", fun _ st => derived "_water_vapor_density" (fun w => VReal (w_vapor w)) (s_weather st));
    ("relative_humidity", fun _ st => derived "_relative_humidity" (fun w => VReal (w_humidity w)) (s_weather st));
    ("diameter_earth_antenna", fun _ st => derived "_diameter_earth_antenna" (fun w => VReal (w_diameter w)) (s_weather st));
    ("antenna_efficiency", fun _ st => derived "_antenna_efficiency" (fun w => VReal (w_efficiency w)) (s_weather st));
    ("doppler_enabled", fun _ st => Ok (VBool (s_doppler st))) ].

(* scenario.<name>, system_level_scenario.py:128-497 *)
Definition read (sc : scenario) (st : state) (name : string) : res pyv :=
  match find (fun e => String.eqb (fst e) name) getters with
  | Some (_, f) => f sc st
  | None => Err (AttributeError ("object has no attribute '" ++ name ++ "'"))
  end.

(* ---- outdoor-to-indoor penetration losses ---- *)
(* lsp.py:434-441; fc in GHz *)
Definition o2i_wall_low (fc : R) : R :=
  5 - 10 * log10 (0.3 * pow10 (- (2 + 0.2 * fc) / 10) + 0.7 * pow10 (- (5 + 4 * fc) / 10)).
(* lsp.py:494-501; fc in GHz *)
Definition o2i_wall_high (fc : R) : R :=
  5 - 10 * log10 (0.7 * pow10 (- (23 + 0.3 * fc) / 10) + 0.3 * pow10 (- (5 + 4 * fc) / 10)).

(* lsp.py:443-460 and lsp.py:503-521: wall loss and random part only for indoor UTs; z is a
   standard normal draw.  Raises like the property reads it makes. *)
Definition o2i_loss (wall : R -> R) (sigma : R) (sc : scenario) (st : state) (z : grid R) : res (grid R) :=
  match s_in st, s_ind st with
  | Some ind, Some d =>
      let mask := fun b u => b2r (t_at ind b u) in
      Ok (fun b s u => wall (sc_fc sc / 10 ^ 9) * mask b u + 0.5 * i_2d_in d b s u + sigma * z b s u * mask b u)
  | None, _ => Err (ValueError "None values not supported.")
  | _, None => Err (AttributeError "object has no attribute '_distance_2d_in'")
  end.

(* lsp.py:408-460 *)
Definition o2i_low_loss := o2i_loss o2i_wall_low 4.4.
(* lsp.py:468-521 *)
Definition o2i_high_loss := o2i_loss o2i_wall_high 6.5.
