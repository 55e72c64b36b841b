(* Construction of the three channel classes as the caller writes it (positional and keyword
   arguments, defaults), the readable properties of the TDL and CDL objects and the ray coupling
   of the CDL. *)
From Coq Require Import Reals String List Bool Arith ZArith.
From Verif Require Import M_Base M_Params M_Links.
Import ListNotations.
Open Scope string_scope.
Open Scope list_scope.
Open Scope R_scope.

(* the kinds of values passed to the constructors, dense_urban.py:129-132 *)
Inductive pyarg := PNone | PBool (b : bool) | PNum (r : R) | PStr (s : string) | PArr (a : array_arg).

(* a parameter list with its defaults, e.g. dense_urban.py:129-132 *)
Definition signature := list (string * option pyarg).
(* the local variables of a call, e.g. dense_urban.py:129-132 *)
Definition frame := list (string * pyarg).

(* value of a local variable or of a keyword, e.g. dense_urban.py:135-137 *)
Fixpoint assoc (n : string) (l : frame) : option pyarg :=
  match l with
  | [] => None
  | (m, v) :: r => if String.eqb n m then Some v else assoc n r
  end.

(* Python's binding of positional and keyword arguments to parameters, as used by every call at
   dense_urban.py:135-139, dense_urban_scenario.py:73-74 *)
Fixpoint fill (sig : signature) (pos : list pyarg) (kw : frame) : res frame :=
  match sig, pos with
  | [], _ => Ok []
  | (n, _) :: s, v :: p => f <- fill s p kw ;; Ok ((n, v) :: f)
  | (n, d) :: s, [] =>
      v <- match assoc n kw with
           | Some v => Ok v
           | None => match d with Some v => Ok v | None => Err (TypeError "missing a required positional argument") end
           end ;;
      f <- fill s [] kw ;; Ok ((n, v) :: f)
  end.
(* dense_urban.py:135-139; a keyword given twice is a syntax error and cannot reach the call *)
Definition call_with (sig : signature) (pos : list pyarg) (kw : frame) : res frame :=
  let names := map fst sig in
  if Nat.ltb (length sig) (length pos) then Err (TypeError "takes fewer positional arguments")
  else if negb (forallb (fun k => mem (fst k) names) kw) then Err (TypeError "got an unexpected keyword argument")
  else if existsb (fun k => mem (fst k) (firstn (length pos) names)) kw then Err (TypeError "got multiple values for argument")
  else fill sig pos kw.

(* reading a local variable; all names read below are parameters of the function.
   e.g. dense_urban.py:135 *)
Definition var (f : frame) (n : string) : pyarg := match assoc n f with Some v => v | None => PNone end.

(* dense_urban.py:129-132, urban.py:129-132, sub_urban.py:129-132 *)
Definition channel_signature : signature :=
  [ ("carrier_frequency", None); ("ut_array", None); ("bs_array", None); ("direction", None);
    ("elevation_angle", None); ("enable_pathloss", Some (PBool true)); ("enable_shadow_fading", Some (PBool true));
    ("average_street_width", Some (PNum 20)); ("average_building_height", Some (PNum 5));
    ("always_generate_lsp", Some (PBool false)); ("doppler_enabled", Some (PBool true)); ("precision", Some PNone) ].

(* dense_urban_scenario.py:68-71, urban_scenario.py:67-70, sub_urban_scenario.py:67-70 *)
Definition scenario_signature : signature :=
  [ ("carrier_frequency", None); ("ut_array", None); ("bs_array", None); ("direction", None);
    ("elevation_angle", None); ("enable_pathloss", Some (PBool true)); ("enable_shadow_fading", Some (PBool true));
    ("average_street_width", Some (PNum 20)); ("average_building_height", Some (PNum 5));
    ("doppler_enabled", Some (PBool true)); ("precision", Some PNone) ].

(* system_level_scenario.py:63-65 *)
Definition base_signature : signature :=
  [ ("carrier_frequency", None); ("ut_array", None); ("bs_array", None); ("direction", None);
    ("elevation_angle", None); ("enable_pathloss", Some (PBool true)); ("enable_shadow_fading", Some (PBool true));
    ("doppler_enabled", Some (PBool true)); ("precision", Some PNone) ].

(* system_level_scenario.py:63-126 with the arguments of the frame.  A value of the wrong kind is
   a TypeError here; which exception Python raises for it is not modelled. *)
Definition base_body (e : env) (f : frame) : res scenario :=
  match var f "carrier_frequency", var f "ut_array", var f "bs_array", var f "direction",
        var f "elevation_angle", var f "enable_pathloss", var f "enable_shadow_fading", var f "doppler_enabled" with
  | PNum fc, PArr ut, PArr bs, PStr dir, PNum elev, PBool pl, PBool sf, PBool dp =>
      scenario_init e fc ut bs dir elev pl sf dp
  | _, _, _, _, _, _, _, _ => Err (TypeError "wrong kind of argument")
  end.

(* the attributes set at dense_urban_scenario.py:73-82; the two sizes are read by the properties of
   dense_urban_scenario.py:113-121, urban_scenario.py:112-120, sub_urban_scenario.py:112-120 and nowhere else *)
Record scenario_object := {
  so_scenario : scenario; so_ut : array_arg; so_bs : array_arg;
  so_width : R; so_height : R; so_precision : pyarg }.

(* dense_urban_scenario.py:73-82, urban_scenario.py:72-81, sub_urban_scenario.py:72-81 *)
Definition scenario_body (e : env) (f : frame) : res scenario_object :=
  g <- call_with base_signature
         (map (var f) ["carrier_frequency"; "ut_array"; "bs_array"; "direction"; "elevation_angle";
                       "enable_pathloss"; "enable_shadow_fading"; "doppler_enabled"; "precision"]) [] ;;
  sc <- base_body e g ;;
  match var g "ut_array", var g "bs_array", var f "average_street_width", var f "average_building_height" with
  | PArr ut, PArr bs, PNum w, PNum h =>
      Ok {| so_scenario := sc; so_ut := ut; so_bs := bs; so_width := w; so_height := h; so_precision := var g "precision" |}
  | _, _, _, _ => Err (TypeError "wrong kind of argument")
  end.

(* the call of the scenario class; only UrbanScenario gets its precision by position.
   dense_urban.py:135-137, urban.py:135-137, sub_urban.py:135-137 *)
Definition scenario_call (e : env) (f : frame) : res frame :=
  let first := map (var f) ["carrier_frequency"; "ut_array"; "bs_array"; "direction"; "elevation_angle";
                            "enable_pathloss"; "enable_shadow_fading"; "average_street_width";
                            "average_building_height"; "doppler_enabled"] in
  match e with
  | Urban => call_with scenario_signature (first ++ [var f "precision"]) []
  | DenseUrban | SubUrban => call_with scenario_signature first [("precision", var f "precision")]
  end.

(* the attributes set at system_level_channel.py:58-79 *)
Record channel_object := {
  co_scenario : scenario_object; co_always : bool; co_tx : array_arg; co_rx : array_arg }.

(* system_level_channel.py:58-79; no other direction reaches this point *)
Definition channel_body (s : scenario_object) (always : pyarg) : res channel_object :=
  match always with
  | PBool b =>
      if String.eqb (sc_dir (so_scenario s)) "uplink" then
        Ok {| co_scenario := s; co_always := b; co_tx := so_ut s; co_rx := so_bs s |}
      else if String.eqb (sc_dir (so_scenario s)) "downlink" then
        Ok {| co_scenario := s; co_always := b; co_tx := so_bs s; co_rx := so_ut s |}
      else Err (UnboundLocalError "tx_array")
  | _ => Err (TypeError "wrong kind of argument")
  end.

(* DenseUrban(...), Urban(...), SubUrban(...): dense_urban.py:129-139, urban.py:129-139, sub_urban.py:129-139 *)
Definition construct (e : env) (pos : list pyarg) (kw : frame) : res channel_object :=
  f <- call_with channel_signature pos kw ;;
  g <- scenario_call e f ;;
  s <- scenario_body e g ;;
  channel_body s (var f "always_generate_lsp").

(* DenseUrbanScenario(...), UrbanScenario(...), SubUrbanScenario(...) called directly:
   dense_urban_scenario.py:68-82, urban_scenario.py:67-81, sub_urban_scenario.py:67-81 *)
Definition construct_scenario (e : env) (pos : list pyarg) (kw : frame) : res scenario_object :=
  f <- call_with scenario_signature pos kw ;; scenario_body e f.

(* ---- properties of the delay-line objects ---- *)
(* the kinds of values read at tdl.py:352-406, cdl.py:349-392 *)
Inductive lval := LBool (b : bool) | LInt (z : Z) | LReal (r : R) | LReals (l : list R).

(* tdl.py:352-406 *)
Definition tdl_getters : list (string * (tdl -> res lval)) :=
  [ ("num_clusters", fun t => Ok (LInt (td_num t)));
    ("los", fun t => Ok (LBool (td_los t)));
    ("k_factor", fun t => k <- tdl_k_factor t ;; Ok (LReal k));
    ("delays", fun t => Ok (LReals (tdl_delays t)));
    ("mean_powers", fun t => Ok (LReals (tdl_mean_powers t)));
    ("mean_power_los", fun t => p <- tdl_mean_power_los t ;; Ok (LReal p));
    ("basestation_height", fun t => Ok (LReal (td_height t)));
    ("elevation_angle", fun t => Ok (LReal (td_elev t)));
    ("delay_spread", fun t => Ok (LReal (td_ds t))) ].

(* cdl.py:349-392 *)
Definition cdl_getters : list (string * (cdl -> res lval)) :=
  [ ("num_clusters", fun c => Ok (LInt (cl_num c)));
    ("los", fun c => Ok (LBool (cl_los c)));
    ("k_factor", fun c => k <- cdl_k_factor c ;; Ok (LReal k));
    ("delays", fun c => Ok (LReals (cdl_delays c)));
    ("powers", fun c => Ok (LReals (cdl_powers c)));
    ("delay_spread", fun c => Ok (LReal (cl_ds c))) ].

(* obj.<name>, tdl.py:352-406, cdl.py:349-392 *)
Definition get_attr {A} (table : list (string * (A -> res lval))) (x : A) (n : string) : res lval :=
  match find (fun e => String.eqb (fst e) n) table with
  | Some (_, f) => f x
  | None => Err (AttributeError ("object has no attribute '" ++ n ++ "'"))
  end.

(* cdl.py:394-396 the delay_spread setter *)
Definition cdl_set_ds (c : cdl) (v : R) : cdl :=
  Cdl (cl_los c) (cl_num c) (cl_delays c) (cl_powers c) (cl_k c) v (cl_min_speed c) (cl_max_speed c) (cl_moving_rx c)
      (cl_los_aoa c) (cl_los_zoa c) (cl_los_aod c) (cl_los_zod c) (cl_aoa c) (cl_zoa c) (cl_aod c) (cl_zod c) (cl_xpr c).

(* ---- ray coupling of the CDL, one batch example ---- *)
(* cdl.py:648-674 _shuffle_angles on one cluster; rn are the random numbers drawn for its rays, of
   either distribution; srt is tf.argsort *)
Definition cdl_shuffle (srt : list R -> list nat) (distribution : string) (rn angles : list R) : res (list R) :=
  if String.eqb distribution "gaussian" || String.eqb distribution "laplacian"
  then Ok (map (fun i => nth i angles 0) (srt rn))
  else Err (UnboundLocalError "random_numbers").
(* cdl.py:668-673, all clusters *)
Fixpoint cdl_shuffle_all (srt : list R -> list nat) (distribution : string) (rn : nat -> list R) (angles : list (list R))
    : res (list (list R)) :=
  match angles with
  | [] => Ok []
  | a :: r => x <- cdl_shuffle srt distribution (rn 0%nat) a ;;
              y <- cdl_shuffle_all srt distribution (fun c => rn (S c)) r ;; Ok (x :: y)
  end.
(* cdl.py:676-720 _random_coupling with the rays of cdl.py:316-323 *)
Definition cdl_coupling (srt : list R -> list nat) (c : cdl) (r_aoa r_aod r_zoa r_zod : nat -> list R)
    : res (list (list R) * list (list R) * list (list R) * list (list R)) :=
  aoa <- cdl_shuffle_all srt "gaussian" r_aoa (cl_aoa c) ;;
  aod <- cdl_shuffle_all srt "gaussian" r_aod (cl_aod c) ;;
  zoa <- cdl_shuffle_all srt "laplacian" r_zoa (cl_zoa c) ;;
  zod <- cdl_shuffle_all srt "laplacian" r_zod (cl_zod c) ;;
  Ok (aoa, aod, zoa, zod).

(* cdl.py:276-290 the velocity of the moving end from the drawn speed and angles *)
Definition cdl_velocity (v phi theta : R) : R * R * R :=
  (v * cos phi * sin theta, v * sin phi * sin theta, v * cos theta).
