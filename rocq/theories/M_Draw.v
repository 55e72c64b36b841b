(* What is drawn.  Models /repo/OpenNTN/system_level_channel.py:271-397 (show_topology),
   antenna.py:350-365 (AntennaPanel.show) and antenna.py:689-719 (PanelArray.show).
   A picture is the arguments of the drawing calls; what matplotlib makes of them is not modelled.
   Legend, layout, point sizes and edge colours are left out. *)
From Coq Require Import Reals String List Bool Arith.
From Verif Require Import M_Base M_Params M_Geometry M_Scenario M_Antenna M_Array.
Import ListNotations.
Open Scope string_scope.
Open Scope list_scope.
Open Scope R_scope.

(* the outcome of a drawing call; the exceptions are those of indexing numpy arrays and of reading an
   attribute of None, system_level_channel.py:332-355 *)
Inductive drawing (A : Type) := Drawn (a : A) | IndexError | NoneAttribute.
Arguments Drawn {A} a.
Arguments IndexError {A}.
Arguments NoneAttribute {A}.

(* one line of a coordinate system: start, end (None: a coordinate is not a number) and colour *)
(* system_level_channel.py:322-330 *)
Record line := { ln_from : vec3; ln_to : option vec3; ln_colour : string }.

(* system_level_channel.py:369-397 *)
Record picture := {
  p_stations : list vec3;                 (* points labelled 'BS' *)
  p_los : list vec3;                      (* points labelled 'UT LoS' *)
  p_nlos : list vec3;                     (* points labelled 'UT NLoS' *)
  p_texts : list (vec3 * nat);            (* the numbers written into the picture *)
  p_lines : list line;
  p_axis_x : string; p_axis_y : string; p_axis_z : string }.

(* np.where of a vector of n truth values, system_level_channel.py:335-338 *)
Definition np_where (n : nat) (p : nat -> bool) : list nat := filter p (seq 0 n).

(* loc/1000.0, system_level_channel.py:348, 351 *)
Definition to_km (v : vec3) : vec3 := V3 (vx v / 1000) (vy v / 1000) (vz v / 1000).
(* tf.reduce_any(tf.greater(loc, 10000.0)), system_level_channel.py:345-346 *)
Definition any_far (l : list vec3) : bool :=
  existsb (fun v => Rltb 10000 (vx v) || Rltb 10000 (vy v) || Rltb 10000 (vz v)) l.
(* system_level_channel.py:345-352 *)
Definition scaled (l : list vec3) : list vec3 := if any_far l then map to_km l else l.
(* system_level_channel.py:343-352 *)
Definition unit_of (l : list vec3) : string := if any_far l then "[km]" else "[m]".

(* np.max(...) - np.min(...) of one coordinate, system_level_channel.py:357-362; 0 on the empty list,
   where numpy raises: there is always a station *)
Definition spread (l : list R) : R :=
  match l with [] => 0 | x :: r => list_max x r - list_min x r end.
(* system_level_channel.py:357-363 *)
Definition spreads (uts stations : list vec3) : vec3 :=
  V3 (spread (map vx uts ++ map vx stations))
     (spread (map vy uts ++ map vy stations))
     (spread (map vz uts ++ map vz stations)).

(* np.square(x/d) in floating point: x/0 is infinite, 0/0 is not a number *)
(* system_level_channel.py:305, 311, 317 *)
Inductive fl := Number (r : R) | Infinite | NaN.
(* system_level_channel.py:305, 311, 317 *)
Definition square_ratio (x d : R) : fl :=
  if Req_EM_T d 0 then if Req_EM_T x 0 then NaN else Infinite else Number ((x / d) ^ 2).
(* np.sum, system_level_channel.py:305, 311, 317 *)
Definition fl_add (a b : fl) : fl :=
  match a, b with
  | NaN, _ | _, NaN => NaN
  | Infinite, _ | _, Infinite => Infinite
  | Number x, Number y => Number (x + y)
  end.
(* the scaled axis v * (0.1 / sqrt(sum)): nothing is left of it when the sum is infinite.
   A sum of 0 (an axis of length 0) does not occur. *)
(* system_level_channel.py:305-306, 311-312, 317-319 *)
Definition arrow (delta v : vec3) : option vec3 :=
  match fl_add (fl_add (square_ratio (vx v) (vx delta)) (square_ratio (vy v) (vy delta))) (square_ratio (vz v) (vz delta)) with
  | NaN => None
  | Infinite => Some (V3 0 0 0)
  | Number q => Some (vscale (0.1 / sqrt q) v)
  end.

(* the first of the three axes, system_level_channel.py:296-304 *)
Definition axis_x (o : vec3) : vec3 :=
  let a := vx o in let b := vy o in V3 (cos a * cos b) (sin a * cos b) (- sin b).
(* system_level_channel.py:308-310 *)
Definition axis_y (o : vec3) : vec3 :=
  let a := vx o in let b := vy o in let c := vz o in
  V3 (cos a * sin b * sin c - sin a * cos c) (sin a * sin b * sin c + cos a * cos c) (cos b * sin c).
(* system_level_channel.py:314-316 *)
Definition axis_z (o : vec3) : vec3 :=
  let a := vx o in let b := vy o in let c := vz o in
  V3 (cos a * sin b * cos c + sin a * sin c) (sin a * sin b * cos c - cos a * sin c) (cos b * cos c).

(* draw_coordinate_system, system_level_channel.py:289-330 *)
Definition coordinate_system (loc ort delta : vec3) : list line :=
  let l v c := {| ln_from := loc; ln_to := option_map (vadd loc) (arrow delta v); ln_colour := c |} in
  [l (axis_x ort) "r"; l (axis_y ort) "g"; l (axis_z ort) "b"].

(* for u, loc in enumerate(locs): text and coordinate system *)
(* system_level_channel.py:375-377, 386-388 *)
Definition node_texts (locs : list vec3) : list (vec3 * nat) := combine locs (seq 0 (length locs)).
(* system_level_channel.py:375-377, 386-388 *)
Definition node_lines (locs : list vec3) (ort : nat -> vec3) (delta : vec3) : list line :=
  flat_map (fun lu => coordinate_system (fst lu) (ort (snd lu)) delta) (node_texts locs).

(* row b of a tensor, system_level_channel.py:341-342, 354-355 *)
Definition row {A} (t : tens A) (b : nat) : list A := map (t_at t b) (seq 0 (t_num t)).

(* Indices are natural numbers (a negative index counts from the end in Python).  The LoS state has
   the shape [batch, stations, UTs] of the locations, as it has after a successful set_topology. *)
(* system_level_channel.py:271-397 *)
Definition show_topology (st : state) (bs_index batch_index : nat) : drawing picture :=
  match s_in st, s_los st, s_ut_loc st, s_bs_loc st, s_ut_ori st, s_bs_ori st with
  | Some ind, Some los, Some ut, Some bs, Some uto, Some bso =>
      if negb (Nat.ltb batch_index (t_batch ind)) then IndexError
      else if negb (Nat.ltb bs_index (t_num bs)) then IndexError
      else
        let b := batch_index in
        let is_los u := los b bs_index u in
        let ut_loc := scaled (row ut b) in
        let bs_loc := scaled (row bs b) in
        if negb (Nat.ltb b (t_batch uto)) || negb (Nat.ltb b (t_batch bso)) then IndexError
        else if Nat.ltb (t_num bso) (t_num bs) || Nat.ltb (t_num uto) (t_num ut) then IndexError
        else
          let delta := spreads ut_loc bs_loc in
          let at_ ix := map (fun u => nth u ut_loc (V3 0 0 0)) ix in
          Drawn {| p_stations := bs_loc;
                   p_los := at_ (np_where (t_num ut) is_los);
                   p_nlos := at_ (np_where (t_num ut) (fun u => negb (t_at ind b u) && negb (is_los u)));
                   p_texts := node_texts bs_loc ++ node_texts ut_loc;
                   p_lines := node_lines bs_loc (t_at bso b) delta ++ node_lines ut_loc (t_at uto b) delta;
                   p_axis_x := "x " ++ unit_of (row ut b);
                   p_axis_y := "y " ++ unit_of (row ut b);
                   p_axis_z := "z " ++ unit_of (row bs b) |}
  | _, _, _, _, _, _ => NoneAttribute
  end.

(* ---- arrays ---- *)
(* the marks of PanelArray.show: horizontal, vertical, or a stroke turned by an angle in degrees
   antenna.py:691-702 *)
Inductive mark := Horizontal | Vertical | Turned (degrees : R).
(* antenna.py:691-702: the marks of the two polarisations *)
Definition array_marks (p : array_args) : mark * mark :=
  if String.eqb (ar_pol p) "single" then
    if String.eqb (ar_type p) "H" then (Horizontal, Horizontal) else (Vertical, Vertical)
  else if String.eqb (ar_type p) "cross" then (Turned (-45), Turned 45)
  else (Horizontal, Vertical).

(* points in the y-z plane, one mark for all, and the numbers written beside them *)
(* antenna.py:704-715 *)
Record array_picture := {
  ap_first : list (R * R); ap_mark1 : mark;
  ap_numbers : list (nat * (R * R));
  ap_second : list (R * R); ap_mark2 : mark }.

(* pos[:,1], pos[:,2]; antenna.py:706, 713 *)
Definition in_plane (v : vec3) : R * R := (vy v, vz v).

(* antenna.py:689-719 *)
Definition show_array (p : array_args) (a : panel_array) : array_picture :=
  {| ap_first := map in_plane (gather_pos a (pa_ind1 a));
     ap_mark1 := fst (array_marks p);
     ap_numbers := map (fun i => (i + 1, in_plane (pa_pos a i))%nat) (pa_ind1 a);
     ap_second := if String.eqb (ar_pol p) "dual" then map in_plane (gather_pos a (pa_ind2 a)) else [];
     ap_mark2 := snd (array_marks p) |}.

(* the marks are always vertical for the first and horizontal for the second polarisation *)
(* antenna.py:350-365 *)
Definition show_panel (q : panel) : array_picture :=
  let n := (pn_rows q * pn_cols q)%nat in
  let pos := map (pn_pos q) (seq 0 (n * (if String.eqb (pn_pol q) "single" then 1 else 2))) in
  {| ap_first := map in_plane (firstn n pos);
     ap_mark1 := Vertical;
     ap_numbers := combine (map S (seq 0 (length (firstn n pos)))) (map in_plane (firstn n pos));
     ap_second := if String.eqb (pn_pol q) "dual" then map in_plane (skipn n pos) else [];
     ap_mark2 := Horizontal |}.
