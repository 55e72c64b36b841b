(* Specification vocabulary for the readable properties and the outdoor-to-indoor loss (C77, C78). *)
From Coq Require Import Reals String List Bool.
From Verif Require Import M_Base.
Import ListNotations.
Open Scope string_scope.
Open Scope list_scope.
Open Scope R_scope.

(* names in the class documentation, by what they depend on *)
Definition input_properties : list string :=
  [ "ut_loc"; "bs_loc"; "ut_orientations"; "bs_orientations"; "ut_velocities"; "indoor" ].
Definition size_properties : list string := [ "batch_size"; "num_ut"; "num_bs"; "h_ut"; "h_bs" ].
Definition link_properties : list string :=
  [ "los"; "distance_2d"; "distance_2d_in"; "distance_2d_out"; "distance_3d"; "distance_3d_in";
    "distance_3d_out"; "matrix_ut_distance_2d"; "los_aod"; "los_aoa"; "los_zod"; "los_zoa";
    "los_probability"; "lsp_log_mean"; "lsp_log_std"; "zod_offset"; "basic_pathloss";
    "gas_pathloss"; "scintillation_pathloss"; "entry_pathloss"; "free_space_pathloss" ].
Definition weather_properties : list string :=
  [ "latitude"; "lwc"; "rain_rate"; "atmospheric_pressure"; "temperature"; "water_vapor_density";
    "relative_humidity"; "diameter_earth_antenna"; "antenna_efficiency" ].

(* dB to power ratio *)
Definition from_dB (x : R) : R := exp (x / 10 * ln 10).

(* TR 38.901 table 7.4.3-1, frequency in GHz *)
Definition glass (f : R) : R := 2 + 0.2 * f.
Definition coated_glass (f : R) : R := 23 + 0.3 * f.
Definition concrete (f : R) : R := 5 + 4 * f.

(* fraction of the power that passes a wall made of two materials *)
Definition wall_transmission (share l1 l2 : R) : R :=
  share * from_dB (- l1) + (1 - share) * from_dB (- l2).
