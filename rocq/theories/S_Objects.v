(* Specification vocabulary for C80: the documented parameters of the channel classes. *)
From Coq Require Import Reals String List Bool Arith.
From Verif Require Import M_Base M_Params M_Objects.
Import ListNotations.
Open Scope string_scope.
Open Scope list_scope.
Open Scope R_scope.

(* in the documented order *)
Definition documented_parameters : list string :=
  [ "carrier_frequency"; "ut_array"; "bs_array"; "direction"; "elevation_angle"; "enable_pathloss";
    "enable_shadow_fading"; "average_street_width"; "average_building_height"; "always_generate_lsp";
    "doppler_enabled"; "precision" ].

(* the defaults; the first five parameters have none *)
Inductive signature_default : string -> pyarg -> Prop :=
| DD_pathloss : signature_default "enable_pathloss" (PBool true)
| DD_shadow : signature_default "enable_shadow_fading" (PBool true)
| DD_width : signature_default "average_street_width" (PNum 20)
| DD_height : signature_default "average_building_height" (PNum 5)
| DD_always : signature_default "always_generate_lsp" (PBool false)
| DD_doppler : signature_default "doppler_enabled" (PBool true)
| DD_precision : signature_default "precision" PNone.

(* the call gives v to the parameter: by position or by name *)
Definition supplied (pos : list pyarg) (kw : list (string * pyarg)) (name : string) (v : pyarg) : Prop :=
  (exists i, nth_error documented_parameters i = Some name /\ nth_error pos i = Some v) \/ In (name, v) kw.

(* the value in force: the one given, otherwise the default *)
Definition argument (pos : list pyarg) (kw : list (string * pyarg)) (name : string) (v : pyarg) : Prop :=
  supplied pos kw name v \/ ((forall w, ~ supplied pos kw name w) /\ signature_default name v).

(* a call Python accepts: no surplus positional arguments, only known keywords, nothing given twice *)
Definition proper_call (pos : list pyarg) (kw : list (string * pyarg)) : Prop :=
  (length pos <= 12)%nat /\
  forall k, In k (map fst kw) -> exists i, nth_error documented_parameters i = Some k /\ (length pos <= i)%nat.

(* the parameters without a default *)
Definition required_given (pos : list pyarg) (kw : list (string * pyarg)) : Prop :=
  forall n, In n ["carrier_frequency"; "ut_array"; "bs_array"; "direction"; "elevation_angle"] ->
    exists v, supplied pos kw n v.

(* the twelve values in force *)
Definition call_arguments (pos : list pyarg) (kw : list (string * pyarg)) (fc : R) (ut bs : array_arg) (dir : string)
    (elev : R) (pl sf : bool) (w h : R) (al dp : bool) (prec : pyarg) : Prop :=
  argument pos kw "carrier_frequency" (PNum fc) /\ argument pos kw "ut_array" (PArr ut) /\
  argument pos kw "bs_array" (PArr bs) /\ argument pos kw "direction" (PStr dir) /\
  argument pos kw "elevation_angle" (PNum elev) /\ argument pos kw "enable_pathloss" (PBool pl) /\
  argument pos kw "enable_shadow_fading" (PBool sf) /\ argument pos kw "average_street_width" (PNum w) /\
  argument pos kw "average_building_height" (PNum h) /\ argument pos kw "always_generate_lsp" (PBool al) /\
  argument pos kw "doppler_enabled" (PBool dp) /\ argument pos kw "precision" prec.

(* the defaults the class documentation gives for the two sizes, in metres *)
Definition documented_street_width : R := 5.
Definition documented_building_height : R := 20.

(* the call of the example in the class documentation: four keyword arguments *)
Definition documented_example (fc : R) (ut bs : array_arg) : list (string * pyarg) :=
  [("carrier_frequency", PNum fc); ("ut_array", PArr ut); ("bs_array", PArr bs); ("direction", PStr "uplink")].

(* ---- the delay lines (C81) ---- *)
(* the delay spread in the name of the models that cannot be scaled *)
Definition spread_of_name (m : string) : R :=
  if String.eqb m "A30" then 30e-9 else if String.eqb m "B100" then 100e-9 else 300e-9.
