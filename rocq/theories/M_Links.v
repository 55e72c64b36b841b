(* Model of the link-level channel models /repo/OpenNTN/tdl.py (TDL) and /repo/OpenNTN/cdl.py (CDL). *)
From Coq Require Import Reals String List Bool Arith ZArith.
From Verif Require Import M_Base M_Json D_Links M_Params M_Geometry M_Cplx M_Convert.
Import ListNotations.
Open Scope string_scope.
Open Scope list_scope.
Open Scope R_scope.

(* ---- parameter files ---- *)
(* the files tdl.py:264-286 and cdl.py:255-262 name *)
Definition links_dir : list (string * json_obj) :=
  [ ("TDL-A.json", tab_TDL_A); ("TDL-B.json", tab_TDL_B); ("TDL-C.json", tab_TDL_C); ("TDL-D.json", tab_TDL_D);
    ("TDL-A30.json", tab_TDL_A30); ("TDL-B100.json", tab_TDL_B100); ("TDL-C300.json", tab_TDL_C300);
    ("CDL-A.json", tab_CDL_A); ("CDL-B.json", tab_CDL_B); ("CDL-C.json", tab_CDL_C); ("CDL-D.json", tab_CDL_D) ].

(* open / json.load, tdl.py:610-613, cdl.py:435-438 *)
Fixpoint open_link (name : string) (dir : list (string * json_obj)) : res json_obj :=
  match dir with
  | [] => Err (FileNotFoundError name)
  | (n, o) :: d => if String.eqb name n then Ok o else open_link name d
  end.
(* params[key] *)
(* e.g. tdl.py:616-626 *)
Definition field (key : string) (o : json_obj) : res jval :=
  match jlookup key o with Some v => Ok v | None => Err (KeyError key) end.
(* bool(v) *)
(* tdl.py:616, cdl.py:441 *)
Definition as_bool (v : jval) : res bool :=
  match v with
  | JInt z => Ok (negb (Z.eqb z 0))
  | JBool b => Ok b
  | JNum m _ => Ok (negb (Z.eqb m 0))
  | _ => Err (TypeError "bool")
  end.
(* tf.constant(v, tf.int32) *)
(* tdl.py:622, cdl.py:444 *)
Definition as_int (v : jval) : res Z := match v with JInt z => Ok z | _ => Err (TypeError "int") end.
(* tf.constant(v, rdtype) *)
(* cdl.py:456-463 *)
Definition as_real (v : jval) : res R :=
  match v with
  | JNum m e => Ok (IZR m / 10 ^ e)
  | JInt z => Ok (IZR z)
  | _ => Err (TypeError "float")
  end.
(* tdl.py:625-626 *)
Fixpoint as_reals_aux (l : list jval) : res (list R) :=
  match l with [] => Ok [] | v :: t => x <- as_real v ;; r <- as_reals_aux t ;; Ok (x :: r) end.
(* tdl.py:625-626 *)
Definition as_reals (v : jval) : res (list R) :=
  match v with JList l => as_reals_aux l | _ => Err (TypeError "list") end.
(* np.power(10., p / 10.) *)
(* tdl.py:626, cdl.py:448 *)
Definition db_to_linear (p : R) : R := pow10 (p / 10).

(* ================= TDL ================= *)
(* spatial correlation, as square roots: tdl.py:329-350 *)
Inductive corr :=
| Full (l : cmatrix)                                  (* spatial_corr_mat given *)
| Split (rx tx : option cmatrix).

(* the attributes of tdl.py:237-350 *)
Record tdl := Tdl {
  td_los : bool; td_scale : bool; td_num : Z; td_delays : list R; td_powers : list R; td_los_power : R;
  td_rx : nat; td_tx : nat; td_fc : R; td_sinusoids : nat; td_aoa : R; td_ds : R;
  td_min_doppler : R; td_max_doppler : R; td_height : R; td_elev : R; td_corr : corr }.

(* tdl.py:237-252 *)
Record tdl_args := TdlArgs {
  ta_model : string; ta_ds : R; ta_fc : R; ta_sinusoids : nat; ta_aoa : R; ta_min_speed : R; ta_max_speed : option R;
  ta_rx : nat; ta_tx : nat; ta_spatial : option cmatrix; ta_rx_corr : option cmatrix; ta_tx_corr : option cmatrix;
  ta_height : R; ta_elev : R }.

(* tdl.py:262-263 *)
Definition tdl_models : list string := ["A"; "B"; "C"; "D"; "E"; "A30"; "B100"; "C300"].
(* tdl.py:262 *)
Definition mem (x : string) (l : list string) : bool := existsb (String.eqb x) l.

(* tdl.py:264-286: the file name (None: the local variable stays unbound) and the delay spread *)
Definition tdl_file (model : string) (ds : R) : option string * R :=
  if String.eqb model "A" then (Some "TDL-A.json", ds)
  else if String.eqb model "B" then (Some "TDL-B.json", ds)
  else if String.eqb model "C" then (Some "TDL-C.json", ds)
  else if String.eqb model "D" then (Some "TDL-D.json", ds)
  else if String.eqb model "A30" then (Some "TDL-A30.json", 30e-9)
  else if String.eqb model "B100" then (Some "TDL-B100.json", 100e-9)
  else if String.eqb model "C300" then (Some "TDL-C300.json", 300e-9)
  else (None, ds).

(* tdl.py:587-649 _load_parameters *)
Record pdp := Pdp { pd_los : bool; pd_scale : bool; pd_num : Z; pd_delays : list R; pd_powers : list R; pd_los_power : R }.
(* tdl.py:587-649 *)
Definition tdl_load (o : json_obj) : res pdp :=
  v <- field "los" o ;; los <- as_bool v ;;
  v <- field "scale_delays" o ;; scale <- as_bool v ;;
  v <- field "num_clusters" o ;; num <- as_int v ;;
  v <- field "delays" o ;; delays <- as_reals v ;;
  v <- field "powers" o ;; powers_db <- as_reals v ;;
  let mean_powers := map db_to_linear powers_db in
  if los then
    match mean_powers with
    | [] => Err (InvalidArgumentError "slice index 0 of dimension 0 out of bounds")
    | los_power :: rest =>
        let norm_factor := Rsum rest + los_power in
        Ok (Pdp los scale num (tl delays) (map (fun p => p / norm_factor) rest) (los_power / norm_factor))
    end
  else
    let norm_factor := Rsum mean_powers in
    Ok (Pdp los scale num delays (map (fun p => p / norm_factor) mean_powers) 0).

(* tdl.py:547-584 _compute_doppler *)
Definition tdl_doppler (height elev fc speed : R) : R :=
  let G := 6.6743 * / (10 ^ 11) in
  let M := 5.972 * 10 ^ 24 in
  let v_light := 299792458 * 3.6 in
  let r_earth := 6371 in
  let h_sat := height / 1000 in
  let v_sat := sqrt (G * M / (r_earth * 1000 + h_sat * 1000)) / 1000 in
  let additional := v_sat / v_light * (r_earth / (r_earth + h_sat) * cos (deg_2_rad elev)) * fc in
  2 * PI * speed / speed_of_light * fc + additional.

(* tf.linalg.cholesky: [chol n R] is its result for an n x n matrix, None if it raises *)
(* tdl.py:329-350 *)
Definition apply_chol (chol : nat -> cmatrix -> option cmatrix) (n : nat) (m : option cmatrix) : res (option cmatrix) :=
  match m with
  | None => Ok None
  | Some r => match chol n r with Some l => Ok (Some l) | None => Err (InvalidArgumentError "Cholesky") end
  end.

(* tdl.py:237-351 __init__; `precision` dropped *)
Definition tdl_init (chol : nat -> cmatrix -> option cmatrix) (a : tdl_args) : res tdl :=
  if negb (mem (ta_model a) tdl_models) then Err (AssertionError "Invalid TDL model") else
  let '(fname, ds) := tdl_file (ta_model a) (ta_ds a) in
  if negb (Rleb 160000 (ta_height a)) then Err (AssertionError "Height of the basestation must be at least 160000m (LEO)") else
  if negb (Rleb 0 (ta_elev a) && Rleb (ta_elev a) 90) then Err (AssertionError "elevation angle must be between 0 and 90 degrees") else
  match fname with
  | None => Err (UnboundLocalError "parameters_fname")
  | Some f =>
      o <- open_link f links_dir ;;
      p <- tdl_load o ;;
      max_speed <- match ta_max_speed a with
                   | None => Ok (ta_min_speed a)
                   | Some v => if Rleb (ta_min_speed a) v then Ok v
                               else Err (AssertionError "min_speed cannot be larger than max_speed")
                   end ;;
      c <- match ta_spatial a with
           | Some m => l <- apply_chol chol (ta_rx a * ta_tx a) (Some m) ;;
                       Ok (match l with Some x => Full x | None => Split None None end)
           | None => lr <- apply_chol chol (ta_rx a) (ta_rx_corr a) ;;
                     lt <- apply_chol chol (ta_tx a) (ta_tx_corr a) ;; Ok (Split lr lt)
           end ;;
      Ok (Tdl (pd_los p) (pd_scale p) (pd_num p) (pd_delays p) (pd_powers p) (pd_los_power p)
              (ta_rx a) (ta_tx a) (ta_fc a) (ta_sinusoids a) (ta_aoa a) ds
              (tdl_doppler (ta_height a) (ta_elev a) (ta_fc a) (ta_min_speed a))
              (tdl_doppler (ta_height a) (ta_elev a) (ta_fc a) max_speed)
              (ta_height a) (ta_elev a) c)
  end.

(* tdl.py:363-366 k_factor *)
Definition tdl_k_factor (t : tdl) : res R :=
  if td_los t then
    match td_powers t with p :: _ => Ok (td_los_power t / p) | [] => Err (InvalidArgumentError "slice index") end
  else Err (AssertionError "This property is only available for LoS models").
(* tdl.py:369-374 delays (= 509-512 of __call__) *)
Definition tdl_delays (t : tdl) : list R :=
  if td_scale t then map (fun d => d * td_ds t) (td_delays t) else map (fun d => d * 1e-9) (td_delays t).
(* tdl.py:377-384 mean_powers *)
Definition tdl_mean_powers (t : tdl) : list R :=
  if td_los t then match td_powers t with [] => [] | p :: r => (p + td_los_power t) :: r end else td_powers t.
(* tdl.py:387-391 mean_power_los *)
Definition tdl_mean_power_los (t : tdl) : res R :=
  if td_los t then Ok (td_los_power t) else Err (AssertionError "This property is only available for LoS models").
(* tdl.py:409-413 the delay_spread setter *)
Definition tdl_set_ds (t : tdl) (v : R) : tdl :=
  if td_scale t then
    Tdl (td_los t) (td_scale t) (td_num t) (td_delays t) (td_powers t) (td_los_power t) (td_rx t) (td_tx t) (td_fc t)
        (td_sinusoids t) (td_aoa t) v (td_min_doppler t) (td_max_doppler t) (td_height t) (td_elev t) (td_corr t)
  else t.

(* ---- __call__, tdl.py:415-541, one batch example ---- *)
(* doppler: the drawn Doppler shift; theta, phi, phi0: the drawn angles *)
(* tdl.py:425-465, tdl.py:486-495 *)
Record tdl_draws := TdlDraws {
  dw_doppler : R; dw_theta : nat -> nat -> R; dw_phi : nat -> nat -> nat -> nat -> R; dw_phi0 : R }.

(* coefficient of (rx ant, tx ant, path, time step) *)
(* tdl.py:541 *)
Definition tdl_coeff := nat -> nat -> nat -> nat -> cplx.

(* sum of sinusoids scaled by the path power *)
(* tdl.py:418-478 *)
Definition tdl_diffuse (t : tdl) (fs : R) (d : tdl_draws) : tdl_coeff := fun r s p i =>
  let time := INR i / fs in
  let n := td_sinusoids t in
  let h := cmul (creal (1 / sqrt (INR n)))
             (csumN n (fun k =>
                let alpha := 2 * PI / INR n * INR (k + 1) + dw_theta d p k in
                cexpi (dw_doppler d * time * cos alpha + dw_phi d r s p k))) in
  cmul (creal (sqrt (nth p (td_powers t) 0))) h.

(* the specular component of the first tap *)
(* tdl.py:480-501 *)
Definition tdl_specular (t : tdl) (fs : R) (d : tdl_draws) (i : nat) : cplx :=
  cmul (cexpi (dw_doppler d * (INR i / fs) * cos (td_aoa t) + dw_phi0 d)) (creal (sqrt (td_los_power t))).
(* tdl.py:476-506 *)
Definition tdl_taps (t : tdl) (fs : R) (d : tdl_draws) : tdl_coeff := fun r s p i =>
  if td_los t && Nat.eqb p 0 then cadd (tdl_specular t fs d i) (tdl_diffuse t fs d r s p i) else tdl_diffuse t fs d r s p i.

(* spatial correlation.  The full matrix acts on the flattened pair (rx ant, tx ant) *)
(* tdl.py:516-535 *)
Definition tdl_correlate (t : tdl) (h : tdl_coeff) : tdl_coeff :=
  match td_corr t with
  | Full l => fun r s p i =>
      csumN (td_rx t * td_tx t) (fun q => cmul (l (r * td_tx t + s)%nat q) (h (q / td_tx t)%nat (q mod td_tx t)%nat p i))
  | Split lr lt =>
      let h1 : tdl_coeff := match lr with
                | None => h
                | Some l => fun r s p i => csumN (td_rx t) (fun q => cmul (l r q) (h q s p i)) end in
      match lt with
      | None => h1
      | Some l => fun r s p i => csumN (td_tx t) (fun q => cmul (h1 r q p i) (l q s)) end
  end.

(* the product sqrt(mean_powers)*h needs as many powers as clusters, tdl.py:476-478 *)
(* tdl.py:415-541 *)
Definition tdl_call (t : tdl) (fs : R) (d : tdl_draws) : res (tdl_coeff * list R) :=
  if Z.eqb (td_num t) (Z.of_nat (length (td_powers t)))
  then Ok (tdl_correlate t (tdl_taps t fs d), tdl_delays t)
  else Err (InvalidArgumentError "Incompatible shapes").

(* ================= CDL ================= *)
(* the attributes of cdl.py:203-270 and cdl.py:402-572 *)
Record cdl := Cdl {
  cl_los : bool; cl_num : Z; cl_delays : list R; cl_powers : list R; cl_k : R; cl_ds : R;
  cl_min_speed : R; cl_max_speed : R; cl_moving_rx : bool;
  cl_los_aoa : R; cl_los_zoa : R; cl_los_aod : R; cl_los_zod : R;            (* radians *)
  cl_aoa : list (list R); cl_zoa : list (list R); cl_aod : list (list R); cl_zod : list (list R);
  cl_xpr : R }.

(* cdl.py:596-605 *)
Definition cdl_offsets : list R :=
  [ 0.0447; -0.0447; 0.1413; -0.1413; 0.2492; -0.2492; 0.3715; -0.3715; 0.5129; -0.5129;
    0.6797; -0.6797; 0.8844; -0.8844; 1.1481; -1.1481; 1.5195; -1.5195; 2.1551; -2.1551 ].
(* cdl.py:574-619 _generate_rays followed by deg_2_rad *)
Definition generate_rays (angles : list R) (c : R) : list (list R) :=
  map (fun a => map (fun b => deg_2_rad (a + c * b)) cdl_offsets) angles.

(* cdl.py:402-572 _load_parameters; hd/tl of an empty list (an index error) cannot occur with the files *)
Definition cdl_load (downlink : bool) (o : json_obj) (ds vmin vmax : R) : res cdl :=
  v <- field "los" o ;; los <- as_bool v ;;
  v <- field "num_clusters" o ;; num <- as_int v ;;
  v <- field "delays" o ;; delays <- as_reals v ;;
  v <- field "powers" o ;; powers_db <- as_reals v ;;
  let lin := map db_to_linear powers_db in
  let norm_fact := Rsum lin in
  let powers := map (fun p => p / norm_fact) lin in
  v <- field "cASD" o ;; c_aod <- as_real v ;; v <- field "aod" o ;; aod <- as_reals v ;;
  v <- field "cASA" o ;; c_aoa <- as_real v ;; v <- field "aoa" o ;; aoa <- as_reals v ;;
  v <- field "cZSD" o ;; c_zod <- as_real v ;; v <- field "zod" o ;; zod <- as_reals v ;;
  v <- field "cZSA" o ;; c_zoa <- as_real v ;; v <- field "zoa" o ;; zoa <- as_reals v ;;
  v <- field "xpr" o ;; xpr_db <- as_real v ;;
  let cut (l : list R) := if los then tl l else l in
  let first (l : list R) := if los then deg_2_rad (hd 0 l) else 0 in
  let '(powers', k) :=
    if los then
      let los_power := hd 0 powers in
      let rest := tl powers in
      let norm := Rsum rest in
      (map (fun p => p / norm) rest, los_power / norm)
    else (powers, 1) in
  let r_aod := generate_rays (cut aod) c_aod in
  let r_aoa := generate_rays (cut aoa) c_aoa in
  let r_zod := generate_rays (cut zod) c_zod in
  let r_zoa := generate_rays (cut zoa) c_zoa in
  Ok (if downlink
      then Cdl los num (cut delays) powers' k ds vmin vmax true (first aoa) (first zoa) (first aod) (first zod)
               r_aoa r_zoa r_aod r_zod (db_to_linear xpr_db)
      else Cdl los num (cut delays) powers' k ds vmin vmax false (first aod) (first zod) (first aoa) (first zoa)
               r_aod r_zod r_aoa r_zoa (db_to_linear xpr_db)).

(* cdl.py:203-270 __init__; arrays and orientations are only stored, `precision` dropped *)
Record cdl_args := CdlArgs { ca_model : string; ca_ds : R; ca_direction : string; ca_min_speed : R; ca_max_speed : option R }.
(* cdl.py:203-270 *)
Definition cdl_init (a : cdl_args) : res cdl :=
  if negb (mem (ca_direction a) ["uplink"; "downlink"]) then Err (AssertionError "Invalid link direction") else
  max_speed <- match ca_max_speed a with
               | None => Ok (ca_min_speed a)
               | Some v => if Rleb (ca_min_speed a) v then Ok v
                           else Err (AssertionError "min_speed cannot be larger than max_speed")
               end ;;
  if negb (mem (ca_model a) ["A"; "B"; "C"; "D"]) then Err (AssertionError "Invalid CDL model") else
  let fname := if String.eqb (ca_model a) "A" then "CDL-A.json"
               else if String.eqb (ca_model a) "B" then "CDL-B.json"
               else if String.eqb (ca_model a) "C" then "CDL-C.json"
               else "CDL-D.json" in
  o <- open_link fname links_dir ;;
  cdl_load (String.eqb (ca_direction a) "downlink") o (ca_ds a) (ca_min_speed a) max_speed.

(* cdl.py:360-365 k_factor *)
Definition cdl_k_factor (c : cdl) : res R :=
  if cl_los c then
    match cl_powers c with p :: _ => Ok (cl_k c / p) | [] => Err (InvalidArgumentError "slice index") end
  else Err (AssertionError "This property is only available for LoS models").
(* cdl.py:369-371 delays *)
Definition cdl_delays (c : cdl) : list R := map (fun d => d * cl_ds c) (cl_delays c).
(* cdl.py:374-386 powers *)
Definition cdl_powers (c : cdl) : list R :=
  if cl_los c then
    match cl_powers c with
    | [] => []
    | p :: r => map (fun x => x / (cl_k c + 1)) ((cl_k c + p) :: r)
    end
  else cl_powers c.

(* channel_coefficients.py:68-80: the parameters of Topology, none with a default *)
Definition topology_params : list string :=
  ["velocities"; "moving_end"; "los_aoa"; "los_aod"; "los_zoa"; "los_zod"; "los"; "distance_3d";
   "tx_orientations"; "rx_orientations"; "bs_height"; "elevation_angle"; "doppler_enabled"].
(* calling a Python function by keyword: unknown and missing arguments are TypeErrors; the message
   of the latter lists the missing parameters (CPython also counts and quotes them) *)
(* the call at cdl.py:302-311 *)
Definition keyword_call (params kwargs : list string) : res unit :=
  if negb (forallb (fun k => mem k params) kwargs) then Err (TypeError "unexpected keyword argument")
  else match filter (fun p => negb (mem p kwargs)) params with
       | [] => Ok tt
       | missing => Err (TypeError ("missing required positional arguments: " ++ String.concat ", " missing)%string)
       end.
(* cdl.py:272-347 __call__ up to the construction of the Topology (cdl.py:302-311); what follows is
   only reached if that succeeds: it is the ray coupling and the coefficient generation
   modelled in M_Rays.v and M_Coeff.v, abstracted here as [continue]. *)
Definition cdl_call {A} (c : cdl) (batch steps : nat) (fs : R) (continue : res A) : res A :=
  _ <- keyword_call topology_params
         ["velocities"; "moving_end"; "los_aoa"; "los_zoa"; "los_aod"; "los_zod"; "los"; "distance_3d";
          "tx_orientations"; "rx_orientations"] ;;
  continue.
