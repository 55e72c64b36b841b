(* Properties C80 (constructors) and C81 (delay line properties), and the kind of rejection of C01. *)
From Coq Require Import Reals String List Bool Arith ZArith Lia Lra Permutation.
From Verif Require Import M_Base L_Base M_Json M_Params S_Config L_Params L_Config M_Links S_Links L_Tdl L_TdlEx L_Cdl M_Objects S_Objects L_Objects.
Import ListNotations.
Open Scope string_scope.
Open Scope list_scope.
Open Scope R_scope.

(* C01: every other configuration is rejected by an assertion. *)
Theorem C01_rejection_kind :
  forall e fc ut bs dir elev pl sf dp,
  ~ supported_config fc ut bs dir elev ->
  exists m, scenario_init e fc ut bs dir elev pl sf dp = Err (AssertionError m).
Proof. exact init_rejected_kind. Qed.
Print Assumptions C01_rejection_kind.

(* Urban(2e9, ut, bs, "uplink", elevation_angle=50.0, doppler_enabled=False) constructs *)
Definition ex_pos : list pyarg :=
  [PNum 2e9; PArr {| aa_panel := true; aa_lambda := speed_of_light / 2e9 |};
   PArr {| aa_panel := true; aa_lambda := speed_of_light / 2e9 |}; PStr "uplink"].
Definition ex_kw : list (string * pyarg) := [("doppler_enabled", PBool false); ("elevation_angle", PNum 50)].

Example C80_example_proper : NoDup (map fst ex_kw) /\ proper_call ex_pos ex_kw /\ required_given ex_pos ex_kw /\
  call_arguments ex_pos ex_kw 2e9 {| aa_panel := true; aa_lambda := speed_of_light / 2e9 |}
    {| aa_panel := true; aa_lambda := speed_of_light / 2e9 |} "uplink" 50 true true 20 5 false false PNone.
Proof.
  assert (ND : NoDup (map fst ex_kw)) by (repeat constructor; cbn; intuition discriminate).
  assert (P : proper_call ex_pos ex_kw).
  { split; [cbn; lia|]. intros k [<-|[<-|[]]]; [exists 10%nat|exists 4%nat]; (split; [reflexivity|cbn; lia]). }
  split; [exact ND|]. split; [exact P|]. split.
  - intros n I. cbn in I. destruct I as [<-|[<-|[<-|[<-|[<-|[]]]]]].
    + eexists. left. exists 0%nat. split; reflexivity.
    + eexists. left. exists 1%nat. split; reflexivity.
    + eexists. left. exists 2%nat. split; reflexivity.
    + eexists. left. exists 3%nat. split; reflexivity.
    + eexists. right. right. left. reflexivity.
  - apply call_arguments_slots; [exact ND|exact P|reflexivity].
Qed.

Example C80_example_constructs : exists obj, construct Urban ex_pos ex_kw = Ok obj.
Proof.
  destruct C80_example_proper as (ND & P & _ & C). apply object_supported; [exact ND|]. split; [exact P|].
  do 12 eexists. split; [exact C|]. unfold supported_config, in_S_band; cbn. repeat split; auto; lra.
Qed.

(* misspelled keyword, missing elevation angle, direction given twice *)
Example C80_example_bad : forall kw, In kw [[("elevation", PNum 50)]; []; [("direction", PStr "uplink"); ("elevation_angle", PNum 50)]] ->
  exists s, construct Urban ex_pos kw = Err (TypeError s).
Proof. intros kw [<-|[<-|[<-|[]]]]; eexists; reflexivity. Qed.

(* C80: a call constructs a channel exactly if Python accepts it and the arguments, given by position, by name or by default, are a supported configuration. *)
Theorem C80_constructs_exactly :
  forall e pos kw, NoDup (map fst kw) ->
  ((exists obj, construct e pos kw = Ok obj) <->
   proper_call pos kw /\
   exists fc ut bs dir elev pl sf w h al dp prec,
     call_arguments pos kw fc ut bs dir elev pl sf w h al dp prec /\ supported_config fc ut bs dir elev).
Proof. exact object_supported. Qed.
Print Assumptions C80_constructs_exactly.

(* C80: the object is the one described by the arguments in force; the transmitting array is that of the end the direction names. *)
Theorem C80_object :
  forall e pos kw obj, NoDup (map fst kw) ->
  (construct e pos kw = Ok obj <->
   proper_call pos kw /\
   exists fc ut bs dir elev pl sf w h al dp prec,
     call_arguments pos kw fc ut bs dir elev pl sf w h al dp prec /\
     scenario_init e fc ut bs dir elev pl sf dp = Ok (so_scenario (co_scenario obj)) /\
     so_ut (co_scenario obj) = ut /\ so_bs (co_scenario obj) = bs /\
     so_width (co_scenario obj) = w /\ so_height (co_scenario obj) = h /\ so_precision (co_scenario obj) = prec /\
     co_always obj = al /\
     (dir = "uplink" -> co_tx obj = ut /\ co_rx obj = bs) /\
     (dir = "downlink" -> co_tx obj = bs /\ co_rx obj = ut)).
Proof. exact object_iff. Qed.
Print Assumptions C80_object.

(* C80: every argument can be read back. *)
Theorem C80_arguments_are_kept :
  forall e pos kw obj fc ut bs dir elev pl sf w h al dp prec, NoDup (map fst kw) ->
  construct e pos kw = Ok obj ->
  call_arguments pos kw fc ut bs dir elev pl sf w h al dp prec ->
  sc_env (so_scenario (co_scenario obj)) = e /\ sc_fc (so_scenario (co_scenario obj)) = fc /\
  sc_dir (so_scenario (co_scenario obj)) = dir /\ sc_elev (so_scenario (co_scenario obj)) = elev /\
  sc_pathloss (so_scenario (co_scenario obj)) = pl /\ sc_shadow (so_scenario (co_scenario obj)) = sf /\
  sc_doppler (so_scenario (co_scenario obj)) = dp /\
  so_ut (co_scenario obj) = ut /\ so_bs (co_scenario obj) = bs /\
  so_width (co_scenario obj) = w /\ so_height (co_scenario obj) = h /\ so_precision (co_scenario obj) = prec /\
  co_always obj = al.
Proof. exact construct_fields. Qed.
Print Assumptions C80_arguments_are_kept.

(* C80: two calls that give the same values by position or by name have the same outcome. *)
Theorem C80_spelling :
  forall e pos kw pos' kw',
  NoDup (map fst kw) -> NoDup (map fst kw') -> proper_call pos kw -> proper_call pos' kw' ->
  (forall n v, In n documented_parameters -> (supplied pos kw n v <-> supplied pos' kw' n v)) ->
  construct e pos kw = construct e pos' kw'.
Proof. exact construct_spelling. Qed.
Print Assumptions C80_spelling.

(* C80: a surplus, unknown, repeated or missing argument is a TypeError. *)
Theorem C80_bad_calls :
  forall e pos kw, NoDup (map fst kw) ->
  ~ (proper_call pos kw /\ required_given pos kw) -> exists s, construct e pos kw = Err (TypeError s).
Proof. exact construct_rejected. Qed.
Print Assumptions C80_bad_calls.

(* C80: an unsupported configuration is rejected by an assertion. *)
Theorem C80_bad_values :
  forall e pos kw fc ut bs dir elev pl sf w h al dp prec, NoDup (map fst kw) ->
  proper_call pos kw -> call_arguments pos kw fc ut bs dir elev pl sf w h al dp prec ->
  ~ supported_config fc ut bs dir elev -> exists m, construct e pos kw = Err (AssertionError m).
Proof. exact object_rejected. Qed.
Print Assumptions C80_bad_values.

(* C80: a scenario class called directly behaves like its channel class: same object, same defaults, same errors (the two parameter lists agree in the first nine positions). *)
Theorem C80_scenario_classes :
  forall e pos kw,
  (length pos <= 9)%nat -> ~ In "always_generate_lsp" (map fst kw) ->
  construct_scenario e pos kw = (obj <- construct e pos kw ;; Ok (co_scenario obj)).
Proof. exact scenario_direct_l. Qed.
Print Assumptions C80_scenario_classes.

(* UrbanScenario(2e9, ut, bs, "uplink", elevation_angle=50.0, doppler_enabled=False) *)
Example C80_scenario_example : (length ex_pos <= 9)%nat /\ ~ In "always_generate_lsp" (map fst ex_kw) /\
  exists s, construct_scenario Urban ex_pos ex_kw = Ok s /\ so_width s = 20.
Proof.
  assert (N : ~ In "always_generate_lsp" (map fst ex_kw)) by (cbn; intuition discriminate).
  split; [cbn; lia|]. split; [exact N|].
  destruct C80_example_constructs as (obj & H). exists (co_scenario obj).
  rewrite scenario_direct_l by (try exact N; cbn; lia). rewrite H. split; [reflexivity|].
  destruct C80_example_proper as (ND & _ & _ & C).
  exact (proj1 (proj2 (proj2 (proj2 (proj2 (proj2 (proj2 (proj2 (proj2 (proj2
    (construct_fields Urban ex_pos ex_kw obj _ _ _ _ _ _ _ _ _ _ _ _ ND H C))))))))))).
Qed.

(* C81: after any assignments to the delay spread the properties of a TDL are the documented ones. *)
Theorem C81_tdl_properties :
  forall chol a t p ws,
  tdl_init chol a = Ok t -> documented_profile (ta_model a) = Some p ->
  let read := get_attr tdl_getters (fold_left tdl_set_ds ws t) in
  let spread := if pf_scalable p then last ws (ta_ds a) else spread_of_name (ta_model a) in
  read "num_clusters" = Ok (LInt (Z.of_nat (length (tap_powers p)))) /\
  read "los" = Ok (LBool (pf_los p)) /\
  read "basestation_height" = Ok (LReal (ta_height a)) /\
  read "elevation_angle" = Ok (LReal (ta_elev a)) /\
  read "delay_spread" = Ok (LReal spread) /\
  read "delays" = Ok (LReals (map (fun d => d * (if pf_scalable p then spread else 1e-9)) (tap_delays p))) /\
  read "mean_powers" = Ok (LReals (map (fun x => x / total_power p) (tap_powers p))) /\
  (pf_los p = true -> exists s d rest, linear_powers p = s :: d :: rest /\
     read "k_factor" = Ok (LReal (s / d)) /\ read "mean_power_los" = Ok (LReal (s / total_power p))) /\
  (pf_los p = false -> exists m1 m2,
     read "k_factor" = Err (AssertionError m1) /\ read "mean_power_los" = Err (AssertionError m2)) /\
  (forall n, ~ In n ["num_clusters"; "los"; "k_factor"; "delays"; "mean_powers"; "mean_power_los"; "basestation_height";
                     "elevation_angle"; "delay_spread"] -> exists m, read n = Err (AttributeError m)).
Proof. exact tdl_properties_l. Qed.
Print Assumptions C81_tdl_properties.

(* C81: after any assignments to the delay spread the properties of a CDL are the documented ones. *)
Theorem C81_cdl_properties :
  forall a c p ws,
  cdl_init a = Ok c -> documented_profile (ca_model a) = Some p ->
  let read := get_attr cdl_getters (fold_left cdl_set_ds ws c) in
  let spread := last ws (ca_ds a) in
  read "num_clusters" = Ok (LInt (Z.of_nat (length (tap_powers p)))) /\
  read "los" = Ok (LBool (pf_los p)) /\
  read "delay_spread" = Ok (LReal spread) /\
  read "delays" = Ok (LReals (map (fun d => d * spread) (tap_delays p))) /\
  read "powers" = Ok (LReals (map (fun x => x / total_power p) (tap_powers p))) /\
  (pf_los p = true -> exists s d rest, linear_powers p = s :: d :: rest /\ read "k_factor" = Ok (LReal (s / d))) /\
  (pf_los p = false -> exists m, read "k_factor" = Err (AssertionError m)) /\
  (forall n, ~ In n ["num_clusters"; "los"; "k_factor"; "delays"; "powers"; "delay_spread"] ->
     exists m, read n = Err (AttributeError m)).
Proof. exact cdl_properties_l. Qed.
Print Assumptions C81_cdl_properties.

(* a fixed and a scalable model after two assignments *)
Example C81_example : forall t, tdl_init (fun _ m => Some m) (TdlArgs "C300" 1e-7 2e9 20 0 0 None 1 1 None None None 600000 50) = Ok t ->
  get_attr tdl_getters (fold_left tdl_set_ds [5e-8; 7e-8] t) "delay_spread" = Ok (LReal 300e-9).
Proof. intros t H. destruct (tdl_properties_l _ _ _ _ [5e-8; 7e-8] H eq_refl) as (_ & _ & _ & _ & -> & _). reflexivity. Qed.
Example C81_example_constructs : exists t, tdl_init (fun _ m => Some m) (TdlArgs "C300" 1e-7 2e9 20 0 0 None 1 1 None None None 600000 50) = Ok t.
Proof. eapply C54_constructs_l; cbn; try reflexivity; try lra; try exact I; discriminate. Qed.

(* C80, refuted part: the documented defaults of the street width (5 m) and the building height (20 m) are exchanged in the code. *)
Theorem C80_documented_sizes_refuted :
  forall e pos kw obj, NoDup (map fst kw) -> construct e pos kw = Ok obj ->
  ((forall v, ~ supplied pos kw "average_street_width" v) ->
     so_width (co_scenario obj) = 20 /\ so_width (co_scenario obj) <> documented_street_width) /\
  ((forall v, ~ supplied pos kw "average_building_height" v) ->
     so_height (co_scenario obj) = 5 /\ so_height (co_scenario obj) <> documented_building_height).
Proof. exact size_defaults. Qed.
Print Assumptions C80_documented_sizes_refuted.

(* C80, refuted part: the call shown in the class documentation raises TypeError. *)
Theorem C80_documented_example_refuted :
  forall e fc ut bs, exists s, construct e [] (documented_example fc ut bs) = Err (TypeError s).
Proof. exact example_rejected. Qed.
Print Assumptions C80_documented_example_refuted.

(* C81: the random coupling of a CDL rearranges the rays of every cluster and loses none, for every argsort and all draws. *)
Theorem C81_cdl_coupling :
  forall srt c r_aoa r_aod r_zoa r_zod, valid_argsort srt ->
  (forall k a, nth_error (cl_aoa c) k = Some a -> length (r_aoa k) = length a) ->
  (forall k a, nth_error (cl_aod c) k = Some a -> length (r_aod k) = length a) ->
  (forall k a, nth_error (cl_zoa c) k = Some a -> length (r_zoa k) = length a) ->
  (forall k a, nth_error (cl_zod c) k = Some a -> length (r_zod k) = length a) ->
  exists aoa aod zoa zod, cdl_coupling srt c r_aoa r_aod r_zoa r_zod = Ok (aoa, aod, zoa, zod) /\
    Forall2 (@Permutation R) aoa (cl_aoa c) /\ Forall2 (@Permutation R) aod (cl_aod c) /\
    Forall2 (@Permutation R) zoa (cl_zoa c) /\ Forall2 (@Permutation R) zod (cl_zod c).
Proof. exact cdl_coupling_l. Qed.
Print Assumptions C81_cdl_coupling.

(* C81: the speed of the moving end of a CDL is the drawn one. *)
Theorem C81_cdl_velocity :
  forall v phi theta, 0 <= v ->
  let '(x, y, z) := cdl_velocity v phi theta in sqrt (x ^ 2 + y ^ 2 + z ^ 2) = v.
Proof. exact cdl_velocity_norm. Qed.
Print Assumptions C81_cdl_velocity.

(* CDL-D, uplink: draws of the right shape exist for every ray list *)
Example C81_coupling_example : forall c, cdl_init (CdlArgs "D" 1e-7 "uplink" 0 (Some 3)) = Ok c ->
  exists x, cdl_coupling argsort c (fun _ => map INR (rev (seq 0 20))) (fun _ => repeat 0 20) (fun _ => repeat 0 20) (fun _ => repeat 0 20) = Ok x.
Proof.
  intros c H. destruct (C55_rays_l _ _ _ _ H eq_refl eq_refl) as (A1 & A2 & A3 & A4 & _). cbn [ca_direction String.eqb Ascii.eqb Bool.eqb ca_model] in *.
  assert (Z : forall (l : list R) k a (x : R), nth_error (map (fun _ => repeat x 20) l) k = Some a -> length a = 20%nat).
  { intros l k a x E. apply nth_error_In, in_map_iff in E as (y & <- & _). apply repeat_length. }
  assert (Y : forall (l : list R) s k a, nth_error (map (fun x => cluster_rays x s) l) k = Some a -> length a = 20%nat).
  { intros l s k a E. apply nth_error_In, in_map_iff in E as (y & <- & _). apply cluster_rays_mean. }
  destruct (cdl_coupling_l argsort c (fun _ => map INR (rev (seq 0 20))) (fun _ => repeat 0 20) (fun _ => repeat 0 20) (fun _ => repeat 0 20) argsort_valid)
    as (a & b & d & e & E & _); [| | | |eexists; exact E].
  - intros k l N. rewrite A3 in N. now rewrite (Z _ _ _ _ N).
  - intros k l N. rewrite A1 in N. now rewrite (Y _ _ _ _ N).
  - intros k l N. rewrite A4 in N. now rewrite (Z _ _ _ _ N).
  - intros k l N. rewrite A2 in N. now rewrite (Y _ _ _ _ N).
Qed.
