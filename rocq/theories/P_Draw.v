(* Properties of the pictures of topologies and arrays: C100, C101. *)
From Coq Require Import Reals String List Bool Arith Lia Lra.
From Verif Require Import M_Base M_Params M_Geometry M_Scenario M_Antenna M_Array M_Draw S_Ray S_Topology S_Antenna S_Draw L_Antenna L_Draw.
Import ListNotations.
Open Scope string_scope.
Open Scope list_scope.
Open Scope R_scope.

(* before a topology is set nothing can be drawn *)
Theorem C100_before :
  forall sc s b,
  show_topology (init_state sc) s b = NoneAttribute.
Proof. exact C100_before_l. Qed.
Print Assumptions C100_before.

(* after a topology has been set, a picture is drawn exactly for the indices in range *)
Theorem C100_drawn :
  forall sc st a dr st' s b ut bs,
  constructed sc -> set_topology sc st a dr = (st', Ok true) ->
  s_ut_loc st' = Some ut -> s_bs_loc st' = Some bs ->
  exists uto bso, s_ut_ori st' = Some uto /\ s_bs_ori st' = Some bso /\
  (t_batch uto = t_batch ut -> t_num uto = t_num ut -> t_batch bso = t_batch bs -> t_num bso = t_num bs ->
   ((exists p, show_topology st' s b = Drawn p) <-> (b < t_batch ut)%nat /\ (s < t_num bs)%nat) /\
   (~ ((b < t_batch ut)%nat /\ (s < t_num bs)%nat) -> show_topology st' s b = IndexError)).
Proof. exact C100_drawn_l. Qed.
Print Assumptions C100_drawn.

(* stations and terminals are numbered, each terminal outdoors has one point, in the class of its LoS state; all terminals share a unit, all stations share a unit *)
Theorem C100_points :
  forall sc st a dr st' s b p ut bs ind los,
  constructed sc -> set_topology sc st a dr = (st', Ok true) ->
  show_topology st' s b = Drawn p -> s_ut_loc st' = Some ut -> s_bs_loc st' = Some bs ->
  s_in st' = Some ind -> s_los st' = Some los ->
  exists ku nu ks ns l n,
    drawn_unit ut b ku nu /\ drawn_unit bs b ks ns /\
    p_axis_x p = ("x " ++ nu)%string /\ p_axis_y p = ("y " ++ nu)%string /\ p_axis_z p = ("z " ++ ns)%string /\
    p_stations p = map (fun i => vscale ks (t_at bs b i)) (seq 0 (t_num bs)) /\
    p_los p = map (fun u => vscale ku (t_at ut b u)) l /\ p_nlos p = map (fun u => vscale ku (t_at ut b u)) n /\
    NoDup (l ++ n) /\
    (forall u, In u l <-> (u < t_num ut)%nat /\ los b s u = true) /\
    (forall u, In u n <-> (u < t_num ut)%nat /\ los b s u = false /\ t_at ind b u = false) /\
    p_texts p = numbered ks bs b ++ numbered ku ut b.
Proof. exact C100_points_l. Qed.
Print Assumptions C100_points.

(* C100 does not hold for terminals indoors: they get no point *)
Theorem C100_indoor_refuted :
  forall sc st a dr st' s b p ut bs ind u,
  constructed sc -> set_topology sc st a dr = (st', Ok true) ->
  show_topology st' s b = Drawn p -> s_ut_loc st' = Some ut -> s_bs_loc st' = Some bs -> s_in st' = Some ind ->
  (u < t_num ut)%nat -> t_at ind b u = true ->
  (length (p_los p) + length (p_nlos p) < t_num ut)%nat.
Proof. exact C100_indoor_l. Qed.
Print Assumptions C100_indoor_refuted.

(* C100 does not hold: stations drawn in kilometres among terminals drawn in metres; a terminal can appear above the satellite *)
Theorem C100_units_refuted :
  forall sc st a dr st' s b p ut bs ind u s',
  constructed sc -> set_topology sc st a dr = (st', Ok true) ->
  show_topology st' s b = Drawn p -> s_ut_loc st' = Some ut -> s_bs_loc st' = Some bs -> s_in st' = Some ind ->
  far bs b -> ~ far ut b -> (u < t_num ut)%nat -> t_at ind b u = false -> (s' < t_num bs)%nat ->
  exists qu qs, In qu (p_los p ++ p_nlos p) /\ In (qu, u) (p_texts p) /\ In qs (p_stations p) /\ In (qs, s') (p_texts p) /\
    qu = t_at ut b u /\ qs = vscale (/ 1000) (t_at bs b s') /\
    (vz (t_at bs b s') < 1000 * vz (t_at ut b u) -> vz qs < vz qu).
Proof. exact C100_units_l. Qed.
Print Assumptions C100_units_refuted.

(* the coordinate systems are the local axes of the nodes, a tenth of the picture long *)
Theorem C100_axes :
  forall sc st a dr st' s b p ut bs uto bso dx dy dz,
  constructed sc -> set_topology sc st a dr = (st', Ok true) ->
  show_topology st' s b = Drawn p -> s_ut_loc st' = Some ut -> s_bs_loc st' = Some bs -> s_ut_ori st' = Some uto -> s_bs_ori st' = Some bso ->
  extent vx (map fst (p_texts p)) dx -> extent vy (map fst (p_texts p)) dy -> extent vz (map fst (p_texts p)) dz ->
  dx <> 0 -> dy <> 0 -> dz <> 0 ->
  exists ku ks gs gu, p_texts p = numbered ks bs b ++ numbered ku ut b /\ p_lines p = concat gs ++ concat gu /\
    Forall2 (fun n ls => local_axes (fst n) (t_at bso b (snd n)) dx dy dz ls) (numbered ks bs b) gs /\
    Forall2 (fun n ls => local_axes (fst n) (t_at uto b (snd n)) dx dy dz ls) (numbered ku ut b) gu.
Proof. exact C100_axes_l. Qed.
Print Assumptions C100_axes.

(* C100 does not hold for a scene without extent in one direction: no axis can be seen *)
Theorem C100_flat_refuted :
  forall sc st a dr st' s b p ut bs f c,
  constructed sc -> set_topology sc st a dr = (st', Ok true) ->
  show_topology st' s b = Drawn p -> s_ut_loc st' = Some ut -> s_bs_loc st' = Some bs ->
  f = vx \/ f = vy \/ f = vz -> (forall n, In n (p_texts p) -> f (fst n) = c) ->
  forall l, In l (p_lines p) -> ~ visible l.
Proof. exact C100_flat_l. Qed.
Print Assumptions C100_flat_refuted.

(* one terminal outdoors 700 m up, one indoors, a satellite 600 km up: the terminal is drawn above the satellite *)
Example C100_example : forall dr, exists sc st' p qs qu dx dy dz,
  constructed sc /\ set_topology sc (init_state sc) scene_args dr = (st', Ok true) /\ show_topology st' 0 0 = Drawn p /\
  far (T 1 1 (fun _ _ => V3 0 0 600000)) 0 /\ ~ far scene_ut 0 /\
  In qs (p_stations p) /\ In qu (p_los p ++ p_nlos p) /\ vz qs = 600 /\ vz qu = 700 /\
  (length (p_los p) + length (p_nlos p) = 1)%nat /\
  extent vx (map fst (p_texts p)) dx /\ extent vy (map fst (p_texts p)) dy /\ extent vz (map fst (p_texts p)) dz /\
  dx <> 0 /\ dy <> 0 /\ dz <> 0.
Proof. exact C100_example_l. Qed.

(* one terminal below the satellite: six lines are drawn and none can be seen *)
Example C100_nadir_example : forall dr, exists sc st' p,
  constructed sc /\ set_topology sc (init_state sc) nadir_args dr = (st', Ok true) /\ show_topology st' 0 0 = Drawn p /\
  length (p_lines p) = 6%nat /\ (forall n, In n (p_texts p) -> vx (fst n) = 0) /\ forall l, In l (p_lines p) -> ~ visible l.
Proof. exact C100_nadir_l. Qed.

(* every antenna is drawn once, at its place; those of the first polarisation carry their number counted from 1 *)
Theorem C101_array :
  forall j1 p a,
  make_array j1 p = Ok a ->
  exists l m, partitions (pa_num_ant a) l m /\
    ap_first (show_array p a) = map (fun n => (vy (pa_pos a n), vz (pa_pos a n))) l /\
    ap_numbers (show_array p a) = map (fun n => (S n, (vy (pa_pos a n), vz (pa_pos a n)))) l /\
    ap_second (show_array p a) = map (fun n => (vy (pa_pos a n), vz (pa_pos a n))) m /\
    (m = [] \/ ap_second (show_array p a) = ap_first (show_array p a)).
Proof. exact C101_array_l. Qed.
Print Assumptions C101_array.

(* the marks show the slants, except for 'VH' *)
Theorem C101_marks_partial :
  forall j1 p a,
  make_array j1 p = Ok a -> ar_type p <> "VH" ->
  mark_fits (ap_mark1 (show_array p a)) (el_slant (pa_pol1 a)) /\
  (forall e, pa_pol2 a = Some e -> mark_fits (ap_mark2 (show_array p a)) (el_slant e)).
Proof. exact C101_marks_l. Qed.
Print Assumptions C101_marks_partial.

(* C101 does not hold for 'VH' *)
Theorem C101_vh_refuted :
  forall j1 p a,
  make_array j1 p = Ok a -> ar_type p = "VH" ->
  ap_mark1 (show_array p a) = Horizontal /\ ap_mark2 (show_array p a) = Vertical /\
  ~ mark_fits (ap_mark1 (show_array p a)) (el_slant (pa_pol1 a)) /\
  exists e, pa_pol2 a = Some e /\ ~ mark_fits (ap_mark2 (show_array p a)) (el_slant e).
Proof. exact C101_vh_l. Qed.
Print Assumptions C101_vh_refuted.

(* pictures of single panels *)
Theorem C101_panel :
  forall rows cols pol v h q,
  make_panel rows cols pol v h = Ok q ->
  length (ap_first (show_panel q)) = (rows * cols)%nat /\
  length (ap_second (show_panel q)) = (if String.eqb pol "dual" then rows * cols else 0)%nat /\
  length (ap_numbers (show_panel q)) = (rows * cols)%nat /\
  forall i j, (i < rows)%nat -> (j < cols)%nat ->
    let n := (j * rows + i)%nat in
    let x := ((INR j - (INR cols - 1) / 2) * h, ((INR rows - 1) / 2 - INR i) * v) in
    nth n (ap_first (show_panel q)) (0, 0) = x /\
    nth n (ap_numbers (show_panel q)) (0%nat, (0, 0)) = (S n, x) /\
    (pol = "dual" -> nth n (ap_second (show_panel q)) (0, 0) = x).
Proof. exact C101_panel_l. Qed.
Print Assumptions C101_panel.

(* dual arrays of both types *)
Example C101_example : forall j1 ty, ty = "VH" \/ ty = "cross" ->
  exists a, make_array j1 (example_args "dual" ty) = Ok a /\ pa_num_ant a = 48%nat.
Proof. exact C101_example_l. Qed.

Example C101_panel_example : exists q, make_panel 4 8 "dual" 0.5 0.5 = Ok q.
Proof. eexists; reflexivity. Qed.
