(* Small specification used by the statements about construction and tables (C01-C05, C17).
   It only talks about numbers, file names and raw JSON content, not about the model's
   look-up helpers. *)
From Coq Require Import Reals String List Bool ZArith.
From Verif Require Import M_Base M_Json M_Params.
Import ListNotations.
Open Scope string_scope.
Open Scope R_scope.

(* documented configurations: README and class docstrings *)
Definition in_S_band (fc : R) : Prop := 1.9e9 <= fc <= 4e9.
Definition in_Ka_band (fc : R) : Prop := 19e9 <= fc <= 40e9.

Definition supported_config (fc : R) (ut bs : array_arg) (dir : string) (elev : R) : Prop :=
  (dir = "uplink" \/ dir = "downlink") /\
  (in_S_band fc \/ in_Ka_band fc) /\
  aa_panel ut = true /\ aa_panel bs = true /\
  aa_lambda ut = speed_of_light / fc /\ aa_lambda bs = speed_of_light / fc /\
  10 <= elev <= 90.

(* names of the shipped files *)
Definition env_name (e : env) : string :=
  match e with DenseUrban => "Dense_Urban" | Urban => "Urban" | SubUrban => "Sub_Urban" end.

Inductive band_name (fc : R) : string -> Prop :=
| BS : in_S_band fc -> band_name fc "S_band"
| BKa : in_Ka_band fc -> band_name fc "Ka_band".

Inductive dir_name : string -> string -> Prop :=
| DU : dir_name "uplink" "UL"
| DD : dir_name "downlink" "DL".

Definition state_name (los : bool) : string := if los then "LOS" else "NLOS".

(* the file that documents the parameters of a link in state los *)
Inductive right_file (e : env) (fc : R) (dir : string) (los : bool) : string -> Prop :=
| RF b d : band_name fc b -> dir_name dir d ->
    right_file e fc dir los
      (env_name e ++ "_" ++ state_name los ++ "_" ++ b ++ "_" ++ d ++ ".json").

(* raw JSON value to number *)
Inductive json_number : jval -> ext -> Prop :=
| JN_float m e : json_number (JNum m e) (Fin (IZR m / 10 ^ e))
| JN_int z : json_number (JInt z) (Fin (IZR z))
| JN_ninf : json_number (JStr "-inf") NegInf.

(* nearest multiple of ten, ties to the even tens digit *)
Definition nearest_ten (x : R) (c : Z) : Prop :=
  exists t : Z, c = (10 * t)%Z /\ Rabs (x - IZR c) <= 5 /\
    (Rabs (x - IZR c) = 5 -> Z.even t = true).

(* the suffix written in the JSON keys for a column *)
Inductive col_key : Z -> string -> Prop :=
| CK10 : col_key 10 "10" | CK20 : col_key 20 "20" | CK30 : col_key 30 "30"
| CK40 : col_key 40 "40" | CK50 : col_key 50 "50" | CK60 : col_key 60 "60"
| CK70 : col_key 70 "70" | CK80 : col_key 80 "80" | CK90 : col_key 90 "90".

(* the JSON key of a parameter for an elevation: name_column, except for the two
   angle scaling constants, which are not tabulated per elevation *)
Inductive json_key (elev : R) (name : string) : string -> Prop :=
| JK_const : (name = "CPhiNLoS" \/ name = "CThetaNLoS") -> json_key elev name name
| JK_col c s : name <> "CPhiNLoS" -> name <> "CThetaNLoS" -> nearest_ten elev c -> col_key c s ->
    json_key elev name (name ++ "_" ++ s).

(* the documented value of a parameter for a link in state los *)
Definition documented_value (e : env) (fc : R) (dir : string) (elev : R) (los : bool)
    (name : string) (x : ext) : Prop :=
  exists file content key j,
    right_file e fc dir los file /\ open_model file = Ok content /\
    json_key elev name key /\ jlookup key content = Some j /\ json_number j x.

(* names requested through get_param (rays.py, lsp.py, the scenario files, system_level_channel.py) *)
Definition link_parameter_names : list string :=
  [ "muDS"; "muASD"; "muASA"; "muK"; "muZSA"; "muZSD"; "sigmaDS"; "sigmaASD"; "sigmaASA";
    "sigmaSF"; "sigmaK"; "sigmaZSA"; "sigmaZSD"; "rTau"; "zeta"; "cASD"; "cASA"; "cZSA";
    "CPhiNLoS"; "CThetaNLoS"; "muXPR"; "sigmaXPR"; "cDS";
    "corrASDvsDS"; "corrASAvsDS"; "corrASAvsSF"; "corrASDvsSF"; "corrDSvsSF"; "corrASDvsASA";
    "corrASDvsK"; "corrASAvsK"; "corrDSvsK"; "corrSFvsK"; "corrZSDvsSF"; "corrZSAvsSF";
    "corrZSDvsK"; "corrZSAvsK"; "corrZSDvsDS"; "corrZSAvsDS"; "corrZSDvsASD"; "corrZSAvsASD";
    "corrZSDvsASA"; "corrZSAvsASA"; "corrZSDvsZSA";
    "corrDistDS"; "corrDistASD"; "corrDistASA"; "corrDistSF"; "corrDistK"; "corrDistZSA";
    "corrDistZSD" ].

Definition std_names : list string :=
  [ "sigmaDS"; "sigmaASD"; "sigmaASA"; "sigmaSF"; "sigmaK"; "sigmaZSA"; "sigmaZSD"; "sigmaXPR" ].
Definition corr_dist_names : list string :=
  [ "corrDistDS"; "corrDistASD"; "corrDistASA"; "corrDistSF"; "corrDistK"; "corrDistZSA";
    "corrDistZSD" ].
Definition spread_names : list string := [ "cASD"; "cASA"; "cZSA" ].
