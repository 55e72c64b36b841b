(* The precision option (C59). *)
From Coq Require Import Reals String List Bool ZArith.
From Verif Require Import M_Base L_Base M_Json M_Params M_Dtype S_Config L_Params L_Config.
Import ListNotations.
Open Scope string_scope.
Open Scope list_scope.

Lemma C59_double_l : forall sc ut bs forced,
  ~ is_ok (scenario_topology sc Double ut bs forced).
Proof.
  intros sc ut bs forced [t H]. unfold scenario_topology, bind in H.
  destruct (los_probability sc); [|discriminate].
  destruct (clutter_loss sc); [|discriminate].
  destruct (sigma_sf_los sc); [|discriminate].
  destruct (sigma_sf_nlos sc); [|discriminate].
  destruct ut, bs; cbn in H; discriminate.
Qed.

Lemma C59_drop_l : forall h isd, ~ is_ok (drop_uts Double h isd).
Proof.
  intros h isd [t H]. unfold drop_uts, bind in H.
  destruct h as [|[]]; cbn in H; discriminate.
Qed.

Lemma C59_drop_single_l : forall h isd t,
  drop_uts Single h isd = Ok t <-> t = T F32 /\ (h = Py \/ h = T F32) /\ (isd = Py \/ isd = T F32).
Proof.
  intros h isd t. unfold drop_uts, bind.
  destruct h as [|[]]; destruct isd as [|[]]; cbn; split; intros H;
    try (injection H as <-; repeat split; auto); try discriminate;
    destruct H as (-> & [X|X] & [Y|Y]); try discriminate; reflexivity.
Qed.

(* the table entries used without a cast are stored with a fraction in every file *)
Definition uncast_okb (e : env) (ul sb los : bool) (c : Z) : bool :=
  let ok k := match plookup_opt (k ++ string_of_Z c) (tbl e ul sb los) with
              | Some (PDec _ _) | Some PNegInf => true | _ => false end in
  ok "sigmaSF_" && (if los then ok "LoS_p_" else ok "CL_").

Lemma uncast_ok : for_cols uncast_okb = true.
Proof. vm_compute. reflexivity. Qed.

Lemma uncast_entry e ul sb los c k : In c cols ->
  (k = "sigmaSF_" \/ (los = true /\ k = "LoS_p_") \/ (los = false /\ k = "CL_")) ->
  exists v, plookup (k ++ string_of_Z c) (tbl e ul sb los) = Ok v /\ entry Single v = T F32.
Proof.
  intros Hc Hk. assert (H := for_cols_spec _ uncast_ok e ul sb los c Hc). unfold uncast_okb in H.
  apply andb_true_iff in H. destruct H as [H1 H2].
  assert (Q : match plookup_opt (k ++ string_of_Z c) (tbl e ul sb los) with
              | Some (PDec _ _) | Some PNegInf => true | _ => false end = true).
  { destruct Hk as [-> | [[-> ->] | [-> ->]]]; assumption. }
  clear H1 H2. unfold plookup. destruct (plookup_opt _ _) as [[m x | z |]|]; try discriminate;
    eexists; split; reflexivity.
Qed.

Lemma typed_single forced high lp cl sl sn :
  entry Single lp = T F32 -> entry Single cl = T F32 ->
  entry Single sl = T F32 -> entry Single sn = T F32 ->
  typed_topology Single F32 F32 forced high lp cl sl sn =
  Ok {| t_distance_2d := T F32; t_distance_3d := T F32; t_angles := T F32; t_indoor := T F32;
        t_lsp_mean := T F32; t_lsp_std := T F32; t_zod_offset := T F32;
        t_basic := T F32; t_gas := T F32; t_scintillation := T F32; t_entry := T F32 |}.
Proof.
  intros H1 H2 H3 H4. unfold typed_topology, sampled_los, basic. rewrite H1, H2, H3, H4.
  destruct forced, high; reflexivity.
Qed.

Lemma C59_single_l : forall e fc ut bs d el pl sf dop sc forced,
  scenario_init e fc ut bs d el pl sf dop = Ok sc ->
  exists t, scenario_topology sc Single F32 F32 forced = Ok t /\
    Forall (fun x => x = T F32)
      [t_distance_2d t; t_distance_3d t; t_angles t; t_indoor t; t_lsp_mean t; t_lsp_std t;
       t_zod_offset t; t_basic t; t_gas t; t_scintillation t; t_entry t].
Proof.
  intros e fc ut bs d el pl sf dop sc forced H.
  destruct (init_accepted _ _ _ _ _ _ _ _ _ _ H) as [[Hd Hb He Hl Ht Hn] _].
  assert (Hc := angle_col_in _ He).
  unfold scenario_topology, los_probability, clutter_loss, sigma_sf_los, sigma_sf_nlos, angle_str.
  rewrite Ht, Hn.
  destruct (uncast_entry (sc_env sc) (dir_ul (sc_dir sc)) (is_s_band (sc_fc sc)) true _ "LoS_p_" Hc)
    as (v1 & -> & E1); [tauto|].
  destruct (uncast_entry (sc_env sc) (dir_ul (sc_dir sc)) (is_s_band (sc_fc sc)) false _ "CL_" Hc)
    as (v2 & -> & E2); [tauto|].
  destruct (uncast_entry (sc_env sc) (dir_ul (sc_dir sc)) (is_s_band (sc_fc sc)) true _ "sigmaSF_" Hc)
    as (v3 & -> & E3); [tauto|].
  destruct (uncast_entry (sc_env sc) (dir_ul (sc_dir sc)) (is_s_band (sc_fc sc)) false _ "sigmaSF_" Hc)
    as (v4 & -> & E4); [tauto|].
  cbn [bind]. rewrite typed_single by assumption. eexists. split; [reflexivity|].
  cbn. repeat constructor.
Qed.

(* locations of the other type are refused whatever the option *)
Lemma C59_mixed_l : forall sc p ut bs forced,
  is_ok (scenario_topology sc p ut bs forced) -> p = Single /\ ut = F32 /\ bs = F32.
Proof.
  intros sc p ut bs forced [t H]. destruct p.
  2: exfalso; apply (C59_double_l sc ut bs forced); exists t; exact H.
  unfold scenario_topology, bind in H.
  destruct (los_probability sc); [|discriminate].
  destruct (clutter_loss sc); [|discriminate].
  destruct (sigma_sf_los sc); [|discriminate].
  destruct (sigma_sf_nlos sc); [|discriminate].
  destruct ut, bs; cbn in H; try discriminate; auto.
Qed.

(* every stage fails by itself *)
Lemma C59_stages_l :
  (forall a b, is_ok (distances a b) -> a = F32 /\ b = F32) /\
  (forall d2 d3, is_ok (indoor Double d2 d3) -> d2 <> T F32 /\ d3 <> T F32) /\
  (forall m e, ~ is_ok (sampled_los Double (PDec m e))) /\
  (forall ut bs d2, is_ok (lsp_tensors Double ut bs d2) -> ut = F64 /\ bs = F64) /\
  (forall d3 cl sl sn, ~ is_ok (basic Double d3 cl sl sn)) /\
  ~ is_ok (gas Double) /\
  (forall high, ~ is_ok (scintillation Double high)) /\
  (forall d3 z sl sn, ~ is_ok (basic Single d3 (PInt z) sl sn)).
Proof.
  assert (N : forall {A} (e : exn), ~ @is_ok A (Err e)) by (intros A e [x Q]; discriminate).
  split; [intros [] []; cbn; intros H; try (exfalso; exact (N _ _ H)); auto|].
  split; [intros [|[]] [|[]]; cbn; intros H; try (exfalso; exact (N _ _ H)); split; discriminate|].
  split; [intros m e; cbn; apply N|].
  split; [intros [] [] [|[]]; cbn; intros H; try (exfalso; exact (N _ _ H)); auto|].
  split; [intros [|[]] [] [] []; cbn; apply N|].
  split; [cbn; apply N|]. split; [intros []; cbn; apply N|].
  intros [|[]] z [] []; cbn; apply N.
Qed.
