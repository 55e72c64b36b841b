(* The readable properties of antenna panels and panel arrays: antenna.py:281-348 (AntennaPanel) and
   antenna.py:576-687 (PanelArray).  Plotting: see M_Draw. *)
From Coq Require Import Reals String List Bool Arith.
From Verif Require Import M_Base M_Params M_Antenna.
Import ListNotations.
Open Scope string_scope.
Open Scope list_scope.
Open Scope R_scope.

(* the kinds of values stored at antenna.py:297-318 and antenna.py:489-574 *)
Inductive aval :=
| ANat (n : nat) | AReal (r : R) | AStr (s : string) | AElem (e : element)
| AInds (l : list nat) | APoints (l : list vec3).

(* antenna.py:653-655, antenna.py:671-673, antenna.py:685-687 *)
Definition only_dual (p : array_args) (v : res aval) : res aval :=
  if String.eqb (ar_pol p) "dual" then v
  else Err (AssertionError "This property is not defined with single polarization").

(* tf.gather(self._ant_pos, ind, axis=0), antenna.py:571-574 *)
Definition gather_pos (a : panel_array) (ind : list nat) : list vec3 := map (pa_pos a) ind.

(* antenna.py:576-687: the object keeps its arguments (None replaced by the defaults of
   antenna.py:463-476) and the results of its constructor *)
Definition array_getters : list (string * (array_args -> panel_array -> res aval)) :=
  [ ("num_rows", fun p _ => Ok (ANat (ar_rows p)));
    ("num_cols", fun p _ => Ok (ANat (ar_cols p)));
    ("num_rows_per_panel", fun p _ => Ok (ANat (ar_rows_pp p)));
    ("num_cols_per_panel", fun p _ => Ok (ANat (ar_cols_pp p)));
    ("polarization", fun p _ => Ok (AStr (ar_pol p)));
    ("polarization_type", fun p _ => Ok (AStr (ar_type p)));
    ("panel_vertical_spacing", fun p _ =>
        Ok (AReal (default (ar_panel_v p) ((INR (ar_rows_pp p) - 1) * default (ar_elem_v p) 0.5 + 0.5))));
    ("panel_horizontal_spacing", fun p _ =>
        Ok (AReal (default (ar_panel_h p) ((INR (ar_cols_pp p) - 1) * default (ar_elem_h p) 0.5 + 0.5))));
    ("element_vertical_spacing", fun p _ => Ok (AReal (default (ar_elem_v p) 0.5)));
    ("element_horizontal_spacing", fun p _ => Ok (AReal (default (ar_elem_h p) 0.5)));
    ("num_panels", fun p _ => Ok (ANat (ar_cols p * ar_rows p)));
    ("num_panels_ant", fun p _ =>
        Ok (ANat (ar_cols_pp p * ar_rows_pp p * (if String.eqb (ar_pol p) "single" then 1 else 2))));
    ("num_ant", fun _ a => Ok (ANat (pa_num_ant a)));
    ("ant_pol1", fun _ a => Ok (AElem (pa_pol1 a)));
    ("ant_pol2", fun p a => only_dual p
        (match pa_pol2 a with
         | Some e => Ok (AElem e)
         | None => Err (AttributeError "object has no attribute '_ant_pol2'")
         end));
    ("ant_pos", fun _ a => Ok (APoints (gather_pos a (seq 0 (pa_num_ant a)))));
    ("ant_ind_pol1", fun _ a => Ok (AInds (pa_ind1 a)));
    ("ant_ind_pol2", fun p a => only_dual p (Ok (AInds (pa_ind2 a))));
    ("ant_pos_pol1", fun _ a => Ok (APoints (gather_pos a (pa_ind1 a))));
    ("ant_pos_pol2", fun p a => only_dual p (Ok (APoints (gather_pos a (pa_ind2 a))))) ].

(* array.<name>, antenna.py:576-687 *)
Definition array_read (p : array_args) (a : panel_array) (name : string) : res aval :=
  match find (fun e => String.eqb (fst e) name) array_getters with
  | Some (_, f) => f p a
  | None => Err (AttributeError ("object has no attribute '" ++ name ++ "'"))
  end.

(* ---- AntennaPanel ---- *)
(* antenna.py:281-318 *)
Record panel := {
  pn_rows : nat; pn_cols : nat; pn_pol : string; pn_v : R; pn_h : R; pn_pos : buffer }.

(* antenna.py:281-318 *)
Definition make_panel (rows cols : nat) (pol : string) (v_sp h_sp : R) : res panel :=
  if String.eqb pol "single" || String.eqb pol "dual" then
    Ok {| pn_rows := rows; pn_cols := cols; pn_pol := pol; pn_v := v_sp; pn_h := h_sp;
          pn_pos := panel_pos rows cols (String.eqb pol "dual") v_sp h_sp |}
  else Err (AssertionError "polarization must be either 'single' or 'dual'").

(* antenna.py:320-348; the property at antenna.py:336 is spelled porlarization *)
Definition panel_getters : list (string * (panel -> aval)) :=
  [ ("ant_pos", fun q => APoints (map (pn_pos q)
       (seq 0 (pn_rows q * pn_cols q * (if String.eqb (pn_pol q) "single" then 1 else 2)))));
    ("num_rows", fun q => ANat (pn_rows q));
    ("num_cols", fun q => ANat (pn_cols q));
    ("porlarization", fun q => AStr (pn_pol q));
    ("vertical_spacing", fun q => AReal (pn_v q));
    ("horizontal_spacing", fun q => AReal (pn_h q)) ].

(* panel.<name>, antenna.py:320-348 *)
Definition panel_read (q : panel) (name : string) : res aval :=
  match find (fun e => String.eqb (fst e) name) panel_getters with
  | Some (_, f) => Ok (f q)
  | None => Err (AttributeError ("object has no attribute '" ++ name ++ "'"))
  end.
