(* Scenario construction and parameter tables.
   Models /repo/OpenNTN/system_level_scenario.py:63-126 (__init__), :886-919 (_load_params),
   :727-773 (get_param), :365-385 (num_clusters properties), and the *_parameter_filepath properties of
   dense_urban_scenario.py:141-171, urban_scenario.py:141-171, sub_urban_scenario.py:141-171. *)
From Coq Require Import Reals String List Bool Arith ZArith.
From Coq Require Import DecimalString.
From Verif Require Import M_Base M_Json D_Dense_Urban D_Urban D_Sub_Urban.
Import ListNotations.
Open Scope string_scope.
Open Scope R_scope.

(* The three environments: classes DenseUrbanScenario, UrbanScenario, SubUrbanScenario. *)
(* dense_urban_scenario.py:68, urban_scenario.py:68, sub_urban_scenario.py:68 *)
Inductive env := DenseUrban | Urban | SubUrban.

(* sionna constant SPEED_OF_LIGHT, used at system_level_scenario.py:89 *)
Definition speed_of_light : R := 299792458.

(* ---------- the models package directory (resource look-up files(models).joinpath) ------- *)
(* system_level_scenario.py:890, system_level_scenario.py:905 *)
Definition models_dir : list (string * json_obj) :=
  [ ("Dense_Urban_LOS_S_band_DL.json",   tab_Dense_Urban_LOS_S_band_DL);
    ("Dense_Urban_LOS_S_band_UL.json",   tab_Dense_Urban_LOS_S_band_UL);
    ("Dense_Urban_LOS_Ka_band_DL.json",  tab_Dense_Urban_LOS_Ka_band_DL);
    ("Dense_Urban_LOS_Ka_band_UL.json",  tab_Dense_Urban_LOS_Ka_band_UL);
    ("Dense_Urban_NLOS_S_band_DL.json",  tab_Dense_Urban_NLOS_S_band_DL);
    ("Dense_Urban_NLOS_S_band_UL.json",  tab_Dense_Urban_NLOS_S_band_UL);
    ("Dense_Urban_NLOS_Ka_band_DL.json", tab_Dense_Urban_NLOS_Ka_band_DL);
    ("Dense_Urban_NLOS_Ka_band_UL.json", tab_Dense_Urban_NLOS_Ka_band_UL);
    ("Urban_LOS_S_band_DL.json",   tab_Urban_LOS_S_band_DL);
    ("Urban_LOS_S_band_UL.json",   tab_Urban_LOS_S_band_UL);
    ("Urban_LOS_Ka_band_DL.json",  tab_Urban_LOS_Ka_band_DL);
    ("Urban_LOS_Ka_band_UL.json",  tab_Urban_LOS_Ka_band_UL);
    ("Urban_NLOS_S_band_DL.json",  tab_Urban_NLOS_S_band_DL);
    ("Urban_NLOS_S_band_UL.json",  tab_Urban_NLOS_S_band_UL);
    ("Urban_NLOS_Ka_band_DL.json", tab_Urban_NLOS_Ka_band_DL);
    ("Urban_NLOS_Ka_band_UL.json", tab_Urban_NLOS_Ka_band_UL);
    ("Sub_Urban_LOS_S_band_DL.json",   tab_Sub_Urban_LOS_S_band_DL);
    ("Sub_Urban_LOS_S_band_UL.json",   tab_Sub_Urban_LOS_S_band_UL);
    ("Sub_Urban_LOS_Ka_band_DL.json",  tab_Sub_Urban_LOS_Ka_band_DL);
    ("Sub_Urban_LOS_Ka_band_UL.json",  tab_Sub_Urban_LOS_Ka_band_UL);
    ("Sub_Urban_NLOS_S_band_DL.json",  tab_Sub_Urban_NLOS_S_band_DL);
    ("Sub_Urban_NLOS_S_band_UL.json",  tab_Sub_Urban_NLOS_S_band_UL);
    ("Sub_Urban_NLOS_Ka_band_DL.json", tab_Sub_Urban_NLOS_Ka_band_DL);
    ("Sub_Urban_NLOS_Ka_band_UL.json", tab_Sub_Urban_NLOS_Ka_band_UL) ].

(* system_level_scenario.py:890-892 *)
Fixpoint find_file (name : string) (d : list (string * json_obj)) : option json_obj :=
  match d with
  | [] => None
  | (n, o) :: d' => if String.eqb name n then Some o else find_file name d'
  end.

(* open(source) / json.load(f), system_level_scenario.py:890-893 and system_level_scenario.py:905-908 *)
Definition open_model (name : string) : res json_obj :=
  match find_file name models_dir with
  | Some o => Ok o
  | None => Err (FileNotFoundError name)
  end.

(* A loaded parameter: tf.constant(float), tf.constant(int32) or float("-inf").
   system_level_scenario.py:894-903 and system_level_scenario.py:910-919. *)
Inductive pval := PDec (m : Z) (e : nat) | PInt (z : Z) | PNegInf.

(* system_level_scenario.py:893-903 *)
Definition params := list (string * pval).

(* float(v) for a string value: only the spelling "-inf" occurs in the tables; any other
   spelling is modelled as a ValueError.  Booleans and lists do not occur. *)
(* system_level_scenario.py:896-903 *)
Definition load_value (v : jval) : res pval :=
  match v with
  | JNum m e => Ok (PDec m e)
  | JInt z => Ok (PInt z)
  | JStr s => if String.eqb s "-inf" then Ok PNegInf else Err (ValueError s)
  | JBool _ => Err (TypeError "bool")
  | JList _ => Err (TypeError "list")
  end.

(* system_level_scenario.py:894-903 *)
Fixpoint load_entries (o : json_obj) : res params :=
  match o with
  | [] => Ok []
  | (k, v) :: o' =>
      p <- load_value v ;; r <- load_entries o' ;; Ok ((k, p) :: r)
  end.

(* system_level_scenario.py:886-919 *)
Definition load_params (name : string) : res params :=
  o <- open_model name ;; load_entries o.

(* self._params_los[key]: last binding wins, KeyError if absent *)
(* e.g. system_level_scenario.py:763-771 *)
Fixpoint plookup_opt (k : string) (p : params) : option pval :=
  match p with
  | [] => None
  | (k', v) :: p' =>
      match plookup_opt k p' with
      | Some w => Some w
      | None => if String.eqb k k' then Some v else None
      end
  end.

(* e.g. system_level_scenario.py:763-771 *)
Definition plookup (k : string) (p : params) : res pval :=
  match plookup_opt k p with Some v => Ok v | None => Err (KeyError k) end.

(* ---------- numeric meaning of a loaded value ---------- *)
(* system_level_scenario.py:896-903 *)
Definition pval_ext (v : pval) : ext :=
  match v with
  | PDec m e => Fin (IZR m / 10 ^ e)
  | PInt z => Fin (IZR z)
  | PNegInf => NegInf
  end.

(* ---------- band tests ---------- *)
(* system_level_scenario.py:74, repeated in the *_parameter_filepath asserts *)
Definition in_supported_band (fc : R) : bool :=
  (Rleb 19e9 fc && Rleb fc 40e9) || (Rleb 1.9e9 fc && Rleb fc 4e9).

(* dense_urban_scenario.py:147,152 and dense_urban_scenario.py:163,168 *)
Definition is_s_band (fc : R) : bool := Rleb 1.5e9 fc && Rleb fc 4e9.

(* *_scenario.py: los_parameter_filepath *)
(* dense_urban_scenario.py:142-155 and the two siblings *)
Definition los_parameter_filepath (e : env) (direction : string) (fc : R) : res string :=
  if in_supported_band fc then
    Ok (if String.eqb direction "uplink" then
          if is_s_band fc then
            match e with
            | DenseUrban => "Dense_Urban_LOS_S_band_UL.json"
            | Urban => "Urban_LOS_S_band_UL.json"
            | SubUrban => "Sub_Urban_LOS_S_band_UL.json" end
          else
            match e with
            | DenseUrban => "Dense_Urban_LOS_Ka_band_UL.json"
            | Urban => "Urban_LOS_Ka_band_UL.json"
            | SubUrban => "Sub_Urban_LOS_Ka_band_UL.json" end
        else
          if is_s_band fc then
            match e with
            | DenseUrban => "Dense_Urban_LOS_S_band_DL.json"
            | Urban => "Urban_LOS_S_band_DL.json"
            | SubUrban => "Sub_Urban_LOS_S_band_DL.json" end
          else
            match e with
            | DenseUrban => "Dense_Urban_LOS_Ka_band_DL.json"
            | Urban => "Urban_LOS_Ka_band_DL.json"
            | SubUrban => "Sub_Urban_LOS_Ka_band_DL.json" end)
  else Err (AssertionError "band").

(* *_scenario.py: nlos_parameter_filepath *)
(* dense_urban_scenario.py:158-171 and the two siblings *)
Definition nlos_parameter_filepath (e : env) (direction : string) (fc : R) : res string :=
  if in_supported_band fc then
    Ok (if String.eqb direction "uplink" then
          if is_s_band fc then
            match e with
            | DenseUrban => "Dense_Urban_NLOS_S_band_UL.json"
            | Urban => "Urban_NLOS_S_band_UL.json"
            | SubUrban => "Sub_Urban_NLOS_S_band_UL.json" end
          else
            match e with
            | DenseUrban => "Dense_Urban_NLOS_Ka_band_UL.json"
            | Urban => "Urban_NLOS_Ka_band_UL.json"
            | SubUrban => "Sub_Urban_NLOS_Ka_band_UL.json" end
        else
          if is_s_band fc then
            match e with
            | DenseUrban => "Dense_Urban_NLOS_S_band_DL.json"
            | Urban => "Urban_NLOS_S_band_DL.json"
            | SubUrban => "Sub_Urban_NLOS_S_band_DL.json" end
          else
            match e with
            | DenseUrban => "Dense_Urban_NLOS_Ka_band_DL.json"
            | Urban => "Urban_NLOS_Ka_band_DL.json"
            | SubUrban => "Sub_Urban_NLOS_Ka_band_DL.json" end)
  else Err (AssertionError "band").

(* ---------- construction ---------- *)
(* What the constructor looks at in an antenna array argument: whether it is an instance of
   PanelArray and its _lambda_0 (antenna.py: SPEED_OF_LIGHT/carrier_frequency). *)
(* system_level_scenario.py:92-101 *)
Record array_arg := { aa_panel : bool; aa_lambda : R }.

(* system_level_scenario.py:63-126 *)
Record scenario := {
  sc_env : env;
  sc_dir : string;
  sc_fc : R;
  sc_lambda : R;
  sc_elev : R;
  sc_pathloss : bool;
  sc_shadow : bool;
  sc_doppler : bool;
  sc_plos : params;
  sc_pnlos : params }.

(* system_level_scenario.py:63-126.  Assertions in source order; the street width and building
   height arguments of the subclasses are stored but never read and are omitted.
   float32 rounding of the wavelengths before they are compared (line 101) is idealised. *)
Definition scenario_init (e : env) (fc : R) (ut bs : array_arg) (direction : string)
    (elev : R) (pathloss shadow doppler : bool) : res scenario :=
  if negb (String.eqb direction "uplink" || String.eqb direction "downlink") then
    Err (AssertionError "'direction' must be 'uplink' or 'downlink'")
  else if negb (in_supported_band fc) then
    Err (AssertionError "Carrier frequency must be either in S Band or Ka Band")
  else
    let lambda := speed_of_light / fc in
    if negb (aa_panel ut) then Err (AssertionError "'ut_array' must be an instance of PanelArray")
    else if negb (aa_panel bs) then Err (AssertionError "'bs_array' must be an instance of PanelArray")
    else if negb (Reqb (aa_lambda ut) (aa_lambda bs) && Reqb (aa_lambda bs) lambda) then
      Err (AssertionError "carrier frequencies must match")
    else if negb (Rleb 10 elev && Rleb elev 90) then
      Err (AssertionError "elevation angle must be in range [10,90]")
    else
      pl <- los_parameter_filepath e direction fc ;;
      tl <- load_params pl ;;
      pn <- nlos_parameter_filepath e direction fc ;;
      tn <- load_params pn ;;
      Ok {| sc_env := e; sc_dir := direction; sc_fc := fc; sc_lambda := lambda;
            sc_elev := elev; sc_pathloss := pathloss; sc_shadow := shadow;
            sc_doppler := doppler; sc_plos := tl; sc_pnlos := tn |}.

(* ---------- table columns ---------- *)
(* str(round(elevation/10.0)*10), system_level_scenario.py:368,374,381,753;
   dense_urban_scenario.py:130; utils.py:1769 *)
Definition angle_col (elev : R) : Z := (py_round (elev / 10) * 10)%Z.

(* str(), system_level_scenario.py:754 *)
Definition string_of_Z (z : Z) : string := NilEmpty.string_of_int (Z.to_int z).

(* system_level_scenario.py:754 *)
Definition angle_str (elev : R) : string := string_of_Z (angle_col elev).

(* key used by get_param, system_level_scenario.py:751-759 *)
Definition is_scaling_constant (name : string) : bool :=
  String.eqb name "CPhiNLoS" || String.eqb name "CThetaNLoS".

(* system_level_scenario.py:752-759 *)
Definition param_key (name ang : string) : string :=
  if is_scaling_constant name then name else name ++ "_" ++ ang.

(* A BS-UT link: (batch example, BS index, UT index). *)
(* the index of the tensors of system_level_scenario.py:727-773 *)
Definition link := (nat * nat * nat)%type.

(* get_param, system_level_scenario.py:727-773: both tables are consulted, then the value is
   chosen per link by the LoS state (tf.where(self.los, ...)). The carrier clipping at system_level_scenario.py:744-745
   is the identity (clip_carrier_frequency_lsp) and its result is unused. *)
Definition get_param (sc : scenario) (los : link -> bool) (name : string)
  : res (link -> pval) :=
  vl <- plookup (param_key name (angle_str (sc_elev sc))) (sc_plos sc) ;;
  vn <- plookup (param_key name (angle_str (sc_elev sc))) (sc_pnlos sc) ;;
  Ok (fun l => if los l then vl else vn).

(* num_clusters_los / _nlos / _max, system_level_scenario.py:365-385 *)
Definition num_clusters_los (sc : scenario) : res pval :=
  plookup ("numClusters_" ++ angle_str (sc_elev sc)) (sc_plos sc).
(* system_level_scenario.py:371-375 *)
Definition num_clusters_nlos (sc : scenario) : res pval :=
  plookup ("numClusters_" ++ angle_str (sc_elev sc)) (sc_pnlos sc).

(* LoS probability, dense_urban_scenario.py:124-135 (and the two siblings) *)
Definition los_probability (sc : scenario) : res pval :=
  plookup ("LoS_p_" ++ angle_str (sc_elev sc)) (sc_plos sc).

(* clutter loss and shadow fading standard deviations, utils.py:1773-1775 *)
Definition clutter_loss (sc : scenario) : res pval :=
  plookup ("CL_" ++ angle_str (sc_elev sc)) (sc_pnlos sc).
(* utils.py:1774 *)
Definition sigma_sf_los (sc : scenario) : res pval :=
  plookup ("sigmaSF_" ++ angle_str (sc_elev sc)) (sc_plos sc).
(* utils.py:1775 *)
Definition sigma_sf_nlos (sc : scenario) : res pval :=
  plookup ("sigmaSF_" ++ angle_str (sc_elev sc)) (sc_pnlos sc).

(* ---------- one column of one table, as the numbers the rest of the code computes with ---- *)
(* The code calls get_param once per name and computes with the resulting tensors.  The model
   collects the values of one table at the current angle into a record; a failing look-up or a
   value of the wrong kind is an error of the whole record (properties C04/C05 show this never
   happens).  muASD and muZSD may be -inf (ext). *)
(* the values system_level_scenario.py:727-773 returns *)
Record lparams := {
  lp_muDS : R; lp_muASD : ext; lp_muASA : R; lp_muK : R; lp_muZSA : R; lp_muZSD : ext;
  lp_sigmaDS : R; lp_sigmaASD : R; lp_sigmaASA : R; lp_sigmaSF : R; lp_sigmaK : R;
  lp_sigmaZSA : R; lp_sigmaZSD : R;
  lp_rTau : R; lp_zeta : R; lp_cASD : R; lp_cASA : R; lp_cZSA : R;
  lp_CPhi : R; lp_CTheta : R; lp_muXPR : R; lp_sigmaXPR : R; lp_cDS : R;
  lp_numClusters : Z;
  lp_corr : list R;        (* in the order of corr_names *)
  lp_corrDist : list R }.  (* in the order of corrdist_names *)

(* the 21 calls of _add_param with their matrix positions, lsp.py:232-296 *)
Definition corr_names : list (string * (nat * nat)) :=
  [ ("corrASDvsDS", (0, 1)); ("corrASAvsDS", (0, 2)); ("corrASAvsSF", (3, 2));
    ("corrASDvsSF", (3, 1)); ("corrDSvsSF", (3, 0)); ("corrASDvsASA", (1, 2));
    ("corrASDvsK", (1, 4)); ("corrASAvsK", (2, 4)); ("corrDSvsK", (0, 4));
    ("corrSFvsK", (3, 4)); ("corrZSDvsSF", (3, 6)); ("corrZSAvsSF", (3, 5));
    ("corrZSDvsK", (6, 4)); ("corrZSAvsK", (5, 4)); ("corrZSDvsDS", (6, 0));
    ("corrZSAvsDS", (5, 0)); ("corrZSDvsASD", (6, 1)); ("corrZSAvsASD", (5, 1));
    ("corrZSDvsASA", (6, 2)); ("corrZSAvsASA", (5, 2)); ("corrZSDvsZSA", (5, 6)) ]%nat.

(* correlation distances in LSP order DS,ASD,ASA,SF,K,ZSA,ZSD; lsp.py:358-367 *)
Definition corrdist_names : list string :=
  [ "corrDistDS"; "corrDistASD"; "corrDistASA"; "corrDistSF"; "corrDistK"; "corrDistZSA";
    "corrDistZSD" ].

(* system_level_scenario.py:896-903 *)
Definition num_of (v : pval) : res R :=
  match pval_ext v with Fin r => Ok r | NegInf => Err (ValueError "-inf") end.

(* system_level_scenario.py:899-901 *)
Definition int_of (v : pval) : res Z :=
  match v with PInt z => Ok z | _ => Err (TypeError "int32 expected") end.

(* the loops lsp.py:252-294, lsp.py:358-371 *)
Fixpoint mapM {A B} (f : A -> res B) (l : list A) : res (list B) :=
  match l with
  | [] => Ok []
  | a :: l' => b <- f a ;; bs <- mapM f l' ;; Ok (b :: bs)
  end.

(* system_level_scenario.py:727-773 *)
Definition table_column (ang : string) (p : params) : res lparams :=
  let g name := plookup (param_key name ang) p in
  let n name := v <- g name ;; num_of v in
  muDS <- n "muDS" ;; muASD <- g "muASD" ;; muASA <- n "muASA" ;; muK <- n "muK" ;;
  muZSA <- n "muZSA" ;; muZSD <- g "muZSD" ;;
  sDS <- n "sigmaDS" ;; sASD <- n "sigmaASD" ;; sASA <- n "sigmaASA" ;; sSF <- n "sigmaSF" ;;
  sK <- n "sigmaK" ;; sZSA <- n "sigmaZSA" ;; sZSD <- n "sigmaZSD" ;;
  rTau <- n "rTau" ;; zeta <- n "zeta" ;; cASD <- n "cASD" ;; cASA <- n "cASA" ;;
  cZSA <- n "cZSA" ;; cphi <- n "CPhiNLoS" ;; cth <- n "CThetaNLoS" ;;
  muX <- n "muXPR" ;; sX <- n "sigmaXPR" ;; cDS <- n "cDS" ;;
  ncv <- g "numClusters" ;; nc <- int_of ncv ;;
  corr <- mapM (fun c => n (fst c)) corr_names ;;
  cd <- mapM n corrdist_names ;;
  Ok {| lp_muDS := muDS; lp_muASD := pval_ext muASD; lp_muASA := muASA; lp_muK := muK;
        lp_muZSA := muZSA; lp_muZSD := pval_ext muZSD;
        lp_sigmaDS := sDS; lp_sigmaASD := sASD; lp_sigmaASA := sASA; lp_sigmaSF := sSF;
        lp_sigmaK := sK; lp_sigmaZSA := sZSA; lp_sigmaZSD := sZSD;
        lp_rTau := rTau; lp_zeta := zeta; lp_cASD := cASD; lp_cASA := cASA; lp_cZSA := cZSA;
        lp_CPhi := cphi; lp_CTheta := cth; lp_muXPR := muX; lp_sigmaXPR := sX;
        lp_cDS := cDS; lp_numClusters := nc; lp_corr := corr; lp_corrDist := cd |}.

(* the values a link uses: where(los, LoS table, NLoS table), get_param, system_level_scenario.py:763-771 *)
(* system_level_scenario.py:763-773 *)
Definition link_column (sc : scenario) (los : bool) : res lparams :=
  table_column (angle_str (sc_elev sc)) (if los then sc_plos sc else sc_pnlos sc).
