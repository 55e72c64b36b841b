(* Property C59: the precision option. *)
From Coq Require Import Reals String List Bool ZArith Lra.
From Verif Require Import M_Base L_Base M_Json M_Params M_Dtype S_Config L_Params L_Config L_Dtype.
Import ListNotations.
Open Scope string_scope.
Open Scope list_scope.
Open Scope R_scope.


(* With precision 'single' and float32 locations, setting a topology meets no type mismatch in any constructed scenario, and every quantity it stores is float32. *)
Theorem C59_single_precision :
  forall e fc ut bs d el pl sf dop sc forced,
  scenario_init e fc ut bs d el pl sf dop = Ok sc ->
  exists t, scenario_topology sc Single F32 F32 forced = Ok t /\
    Forall (fun x => x = T F32)
      [t_distance_2d t; t_distance_3d t; t_angles t; t_indoor t; t_lsp_mean t; t_lsp_std t;
       t_zod_offset t; t_basic t; t_gas t; t_scintillation t; t_entry t].
Proof. exact C59_single_l. Qed.
Print Assumptions C59_single_precision.

(* With precision 'double' no topology can ever be set: whatever the type of the locations, set_topology stops with a type mismatch, so the option cannot be used. *)
Theorem C59_double_precision_refuted :
  forall sc ut bs forced,
  ~ is_ok (scenario_topology sc Double ut bs forced).
Proof. exact C59_double_l. Qed.
Print Assumptions C59_double_precision_refuted.

(* The only combination that sets a topology is single precision with float32 locations. *)
Theorem C59_accepted_types :
  forall sc p ut bs forced,
  is_ok (scenario_topology sc p ut bs forced) -> p = Single /\ ut = F32 /\ bs = F32.
Proof. exact C59_mixed_l. Qed.
Print Assumptions C59_accepted_types.

(* No single correction would help: distances, LoS sampling, basic path loss, gas absorption and scintillation each fail in double precision, and an integer clutter loss in the tables would fail in single precision too. *)
Theorem C59_double_stages_refuted :
  (forall a b, is_ok (distances a b) -> a = F32 /\ b = F32) /\
  (forall d2 d3, is_ok (indoor Double d2 d3) -> d2 <> T F32 /\ d3 <> T F32) /\
  (forall m e, ~ is_ok (sampled_los Double (PDec m e))) /\
  (forall ut bs d2, is_ok (lsp_tensors Double ut bs d2) -> ut = F64 /\ bs = F64) /\
  (forall d3 cl sl sn, ~ is_ok (basic Double d3 cl sl sn)) /\
  ~ is_ok (gas Double) /\
  (forall high, ~ is_ok (scintillation Double high)) /\
  (forall d3 z sl sn, ~ is_ok (basic Single d3 (PInt z) sl sn)).
Proof. exact C59_stages_l. Qed.
Print Assumptions C59_double_stages_refuted.

(* The user placement of the topology generators fails as well in double precision. *)
Theorem C59_double_user_drop_refuted :
  forall h isd, ~ is_ok (drop_uts Double h isd).
Proof. exact C59_drop_l. Qed.
Print Assumptions C59_double_user_drop_refuted.

(* In single precision UTs can be dropped exactly with a height and a distance given as numbers or float32 tensors, and their coordinates are float32. *)
Theorem C59_single_user_drop :
  forall h isd t,
  drop_uts Single h isd = Ok t <-> t = T F32 /\ (h = Py \/ h = T F32) /\ (isd = Py \/ isd = T F32).
Proof. exact C59_drop_single_l. Qed.
Print Assumptions C59_single_user_drop.

(* a constructed scenario both theorems apply to *)
Example C59_example : exists sc,
  scenario_init Urban 2e9 {| aa_panel := true; aa_lambda := speed_of_light / 2e9 |}
    {| aa_panel := true; aa_lambda := speed_of_light / 2e9 |} "downlink" 45.5 true true true = Ok sc
  /\ is_ok (scenario_topology sc Single F32 F32 false)
  /\ ~ is_ok (scenario_topology sc Double F64 F64 false).
Proof.
  assert (H : is_ok (scenario_init Urban 2e9 {| aa_panel := true; aa_lambda := speed_of_light / 2e9 |}
    {| aa_panel := true; aa_lambda := speed_of_light / 2e9 |} "downlink" 45.5 true true true)).
  { apply construct_iff. unfold supported_config, in_S_band; cbn. repeat split; auto; lra. }
  destruct H as [sc H]. exists sc. split; [exact H|].
  destruct (C59_single_l _ _ _ _ _ _ _ _ _ _ false H) as (t & Ht & _).
  split; [exists t; exact Ht | apply C59_double_l].
Qed.
