(* Properties C01-C05 and C17: construction, table selection, look-ups, table sanity. *)
From Coq Require Import Reals String List Bool ZArith Lra Lia.
From Verif Require Import M_Base L_Base M_Json M_Params S_Config L_Params L_Config.
Import ListNotations.
Open Scope string_scope.
Open Scope R_scope.

(* C01: the constructor accepts exactly the supported configurations. *)
Theorem C01_constructor_accepts_exactly_supported :
  forall e fc ut bs dir elev pathloss shadow doppler,
    is_ok (scenario_init e fc ut bs dir elev pathloss shadow doppler)
    <-> supported_config fc ut bs dir elev.
Proof. exact construct_iff. Qed.
Print Assumptions C01_constructor_accepts_exactly_supported.

(* a concrete supported configuration, and one rejected for each reason *)
Definition ex_arr (fc : R) : array_arg := {| aa_panel := true; aa_lambda := speed_of_light / fc |}.

Example C01_example_accepts :
  is_ok (scenario_init Urban 2e9 (ex_arr 2e9) (ex_arr 2e9) "downlink" 45.5 true true true).
Proof. apply construct_iff. unfold supported_config, in_S_band; cbn. repeat split; auto; lra. Qed.

Example C01_example_rejects_gap :
  ~ is_ok (scenario_init Urban 10e9 (ex_arr 10e9) (ex_arr 10e9) "downlink" 45.5 true true true).
Proof. rewrite construct_iff. unfold supported_config, in_S_band, in_Ka_band. intros (_ & [H | H] & _); lra. Qed.

Example C01_example_rejects_elevation :
  ~ is_ok (scenario_init Urban 2e9 (ex_arr 2e9) (ex_arr 2e9) "uplink" 9.99 true true true).
Proof. rewrite construct_iff. unfold supported_config. intros (_ & _ & _ & _ & _ & _ & H); lra. Qed.

(* The accepted configuration is kept as given. *)
Theorem C01_configuration_is_kept :
  forall e fc ut bs dir elev pathloss shadow doppler sc,
    scenario_init e fc ut bs dir elev pathloss shadow doppler = Ok sc ->
    sc_env sc = e /\ sc_fc sc = fc /\ sc_dir sc = dir /\ sc_elev sc = elev /\
    sc_pathloss sc = pathloss /\ sc_shadow sc = shadow /\ sc_doppler sc = doppler.
Proof.
  exact (fun e fc ut bs d el pl sf dp sc H =>
    proj2 (init_accepted e fc ut bs d el pl sf dp sc H)).
Qed.
Print Assumptions C01_configuration_is_kept.

(* C02: both tables are those of the model's environment, direction and band; the file exists,
   loads completely, and no other file name qualifies. *)
Theorem C02_tables_match_environment_direction_band :
  forall e fc ut bs dir elev pathloss shadow doppler sc,
    scenario_init e fc ut bs dir elev pathloss shadow doppler = Ok sc ->
    forall los : bool, exists file content,
      right_file e fc dir los file /\ open_model file = Ok content /\
      load_entries content = Ok (if los then sc_plos sc else sc_pnlos sc) /\
      forall file', right_file e fc dir los file' -> file' = file.
Proof. exact tables_selected. Qed.
Print Assumptions C02_tables_match_environment_direction_band.

Example C02_example : right_file SubUrban 28e9 "uplink" false "Sub_Urban_NLOS_Ka_band_UL.json".
Proof. apply (RF SubUrban 28e9 "uplink" false "Ka_band" "UL"); constructor. unfold in_Ka_band; lra. Qed.

(* C03: the column used is the nearest multiple of ten (ties to the even tens digit), it is
   the only such multiple, and it is one of 10..90. *)
Theorem C03_elevation_rounding :
  forall elev, 10 <= elev <= 90 ->
    nearest_ten elev (angle_col elev) /\
    (forall c, nearest_ten elev c -> c = angle_col elev) /\
    (10 <= angle_col elev <= 90)%Z /\
    col_key (angle_col elev) (angle_str elev).
Proof.
  exact (fun x H => conj (angle_col_spec x) (conj (nearest_ten_unique x)
    (conj (angle_col_range x H) (col_key_str _ (angle_col_in x H))))).
Qed.
Print Assumptions C03_elevation_rounding.

Example C03_example_ties : nearest_ten 25 20 /\ nearest_ten 35 40 /\ ~ nearest_ten 25 30.
Proof.
  assert (A : Rabs (25 - 20) = 5) by (rewrite Rabs_right; lra).
  assert (B : Rabs (35 - 40) = 5) by (rewrite Rabs_left; lra).
  assert (C : Rabs (25 - 30) = 5) by (rewrite Rabs_left; lra).
  split; [| split].
  - exists 2%Z. rewrite A. repeat split; auto; lra.
  - exists 4%Z. rewrite B. repeat split; auto; lra.
  - intros (t & E & _ & H). assert (t = 3%Z) by lia. subst t. rewrite C in H.
    specialize (H eq_refl). discriminate.
Qed.

(* C04: no look-up fails; only the departure-spread means of downlink tables are -inf. *)
Theorem C04_lookups_never_fail :
  forall e fc ut bs dir elev pathloss shadow doppler sc,
    scenario_init e fc ut bs dir elev pathloss shadow doppler = Ok sc ->
    (forall (los : link -> bool) name, In name link_parameter_names ->
       exists f, get_param sc los name = Ok f /\
         forall l, pval_ext (f l) = NegInf ->
           dir = "downlink" /\ (name = "muASD" \/ name = "muZSD")) /\
    (exists n1, num_clusters_los sc = Ok (PInt n1) /\ (2 <= n1 <= 4)%Z) /\
    (exists n2, num_clusters_nlos sc = Ok (PInt n2) /\ (2 <= n2 <= 4)%Z) /\
    (exists v r, los_probability sc = Ok v /\ pval_ext v = Fin r /\ 0 <= r <= 1) /\
    (exists v r, clutter_loss sc = Ok v /\ pval_ext v = Fin r /\ 0 <= r) /\
    (exists v r, sigma_sf_los sc = Ok v /\ pval_ext v = Fin r /\ 0 <= r) /\
    (exists v r, sigma_sf_nlos sc = Ok v /\ pval_ext v = Fin r /\ 0 <= r).
Proof. exact lookups_never_fail. Qed.
Print Assumptions C04_lookups_never_fail.

(* C05: table sanity, read off the JSON content itself. *)
Theorem C05_table_sanity :
  forall e fc ut bs dir elev pathloss shadow doppler sc,
    scenario_init e fc ut bs dir elev pathloss shadow doppler = Ok sc ->
    forall los x name, documented_value e fc dir elev los name x ->
      (In name std_names -> exists r, x = Fin r /\ 0 <= r) /\
      (In name corr_dist_names -> exists r, x = Fin r /\ 0 < r) /\
      (name = "rTau" -> exists r, x = Fin r /\ 1 < r) /\
      (name = "LoS_p" -> exists r, x = Fin r /\ 0 <= r <= 1) /\
      (name = "numClusters" -> exists r, x = Fin r /\ 2 <= r) /\
      (In name spread_names -> exists r, x = Fin r /\ 0 <= r).
Proof. exact table_sanity. Qed.
Print Assumptions C05_table_sanity.

Theorem C05_los_probability_monotone :
  forall e fc ut bs dir el1 el2 pathloss shadow doppler sc1 sc2 los x y,
    scenario_init e fc ut bs dir el1 pathloss shadow doppler = Ok sc1 ->
    scenario_init e fc ut bs dir el2 pathloss shadow doppler = Ok sc2 -> el1 <= el2 ->
    documented_value e fc dir el1 los "LoS_p" (Fin x) ->
    documented_value e fc dir el2 los "LoS_p" (Fin y) -> x <= y.
Proof. exact losp_monotone. Qed.
Print Assumptions C05_los_probability_monotone.

Theorem C05_los_probability_agrees :
  forall e fc ut bs dir el pathloss shadow doppler sc x y,
    scenario_init e fc ut bs dir el pathloss shadow doppler = Ok sc ->
    documented_value e fc dir el true "LoS_p" x ->
    documented_value e fc dir el false "LoS_p" y -> x = y.
Proof. exact losp_same. Qed.
Print Assumptions C05_los_probability_agrees.

(* documented values exist for every name used by C05, so none of these is vacuous *)
Theorem C05_values_exist :
  forall e fc ut bs dir elev pathloss shadow doppler sc,
    scenario_init e fc ut bs dir elev pathloss shadow doppler = Ok sc ->
    forall los name, In name (link_parameter_names ++ ["LoS_p"; "numClusters"]) ->
      exists x, documented_value e fc dir elev los name x.
Proof. exact documented_exists. Qed.
Print Assumptions C05_values_exist.

(* C17: a link's parameter is the documented value of its own state, whatever the other
   links are, and the documented value is unique. *)
Theorem C17_per_link_parameter :
  forall e fc ut bs dir elev pathloss shadow doppler sc,
    scenario_init e fc ut bs dir elev pathloss shadow doppler = Ok sc ->
    forall (los : link -> bool) name, In name link_parameter_names ->
      exists f, get_param sc los name = Ok f /\
        forall l, documented_value e fc dir elev (los l) name (pval_ext (f l)) /\
          forall x, documented_value e fc dir elev (los l) name x -> x = pval_ext (f l).
Proof. exact per_link_parameter. Qed.
Print Assumptions C17_per_link_parameter.

Example C17_example : documented_value DenseUrban 2e9 "downlink" 10 true "rTau" (Fin (25/10)).
Proof.
  exists "Dense_Urban_LOS_S_band_DL.json", D_Dense_Urban.tab_Dense_Urban_LOS_S_band_DL, "rTau_10", (JNum 25 1).
  split; [apply (RF DenseUrban 2e9 "downlink" true "S_band" "DL"); constructor; unfold in_S_band; lra|].
  split; [reflexivity|]. split.
  - apply (JK_col 10 "rTau" 10 "10"); try discriminate; [| constructor].
    exists 1%Z. split; [reflexivity|]. replace (10 - 10) with 0 by lra. rewrite Rabs_R0. split; [lra|].
    intros; lra.
  - split; [vm_compute; reflexivity|]. replace (25/10) with (25 / 10 ^ 1) by lra. constructor.
Qed.
