From Coq Require Import Reals String List Bool Arith Lia Lra ZArith QArith Qreals.
From Verif Require Import M_Base L_Base M_Json M_Params S_Config L_Params.
Import ListNotations.
Open Scope string_scope.
Open Scope R_scope.

Lemma col_key_str c : In c cols -> col_key c (string_of_Z c).
Proof.
  unfold cols; cbn [In].
  intros [<- | [<- | [<- | [<- | [<- | [<- | [<- | [<- | [<- | []]]]]]]]]]; vm_compute; constructor.
Qed.

Lemma json_key_param elev name : 10 <= elev <= 90 ->
  json_key elev name (param_key name (angle_str elev)).
Proof.
  intros He. unfold param_key, is_scaling_constant.
  destruct (String.eqb_spec name "CPhiNLoS") as [E1 | E1]; cbn [orb].
  - apply JK_const. auto.
  - destruct (String.eqb_spec name "CThetaNLoS") as [E2 | E2].
    + apply JK_const. auto.
    + apply (JK_col elev name (angle_col elev) (angle_str elev) E1 E2).
      * apply angle_col_spec.
      * apply col_key_str, angle_col_in, He.
Qed.

Lemma documented sc (los : bool) name v : accepted sc ->
  plookup (param_key name (angle_str (sc_elev sc))) (if los then sc_plos sc else sc_pnlos sc) = Ok v ->
  documented_value (sc_env sc) (sc_fc sc) (sc_dir sc) (sc_elev sc) los name (pval_ext v).
Proof.
  intros [Hd Hb He Hl Ht Hn] Hv.
  set (f := fname (sc_env sc) (dir_ul (sc_dir sc)) (is_s_band (sc_fc sc)) los).
  assert (Hload : load_params f = Ok (if los then sc_plos sc else sc_pnlos sc)).
  { unfold f. rewrite load_tbl. destruct los; congruence. }
  destruct (load_params_lookup f _ _ _ Hload Hv) as (o & j & H1 & H2 & H3).
  exists f, o, (param_key name (angle_str (sc_elev sc))), j.
  split; [apply right_file_fname; assumption|].
  split; [exact H1|]. split; [apply json_key_param, He|]. auto.
Qed.

Lemma look_name sc (los : bool) name : accepted sc -> In name requested ->
  exists v, plookup (param_key name (angle_str (sc_elev sc))) (if los then sc_plos sc else sc_pnlos sc) = Ok v
    /\ (v = PNegInf -> sc_dir sc = "downlink" /\ (name = "muASD" \/ name = "muZSD")).
Proof.
  intros [Hd Hb He Hl Ht Hn] Hr.
  destruct (name_present (sc_env sc) (dir_ul (sc_dir sc)) (is_s_band (sc_fc sc)) los
     (angle_col (sc_elev sc)) name (angle_col_in _ He) Hr) as (v & H1 & H2).
  exists v. split.
  - destruct los; [rewrite Ht | rewrite Hn]; exact H1.
  - intros Hv. destruct (H2 Hv) as [Hu Hx]. split; [| exact Hx].
    destruct Hd as [E | E]; [| exact E]. unfold dir_ul in Hu. rewrite E in Hu. discriminate.
Qed.

Lemma link_names_requested name : In name link_parameter_names -> In name requested.
Proof.
  assert (H : forallb (fun n => existsb (String.eqb n) requested) link_parameter_names = true)
    by (vm_compute; reflexivity).
  rewrite forallb_forall in H. intros Hn. specialize (H name Hn).
  apply existsb_exists in H. destruct H as (x & Hx & E). apply String.eqb_eq in E. subst. exact Hx.
Qed.

Lemma get_param_doc sc los name : accepted sc -> In name link_parameter_names ->
  exists f, get_param sc los name = Ok f /\
    forall l, documented_value (sc_env sc) (sc_fc sc) (sc_dir sc) (sc_elev sc) (los l) name
                (pval_ext (f l)) /\
      (pval_ext (f l) = NegInf -> sc_dir sc = "downlink" /\ (name = "muASD" \/ name = "muZSD")).
Proof.
  intros Ha Hn. apply link_names_requested in Hn.
  destruct (look_name sc true name Ha Hn) as (vl & L1 & L2).
  destruct (look_name sc false name Ha Hn) as (vn & N1 & N2).
  unfold get_param. cbn [bind] in *. rewrite L1. cbn [bind]. rewrite N1. cbn [bind].
  eexists. split; [reflexivity|]. intros l. cbv beta.
  destruct (los l).
  - split; [exact (documented sc true name vl Ha L1)|].
    intros E. apply L2. destruct vl; cbn in E; congruence.
  - split; [exact (documented sc false name vn Ha N1)|].
    intros E. apply N2. destruct vn; cbn in E; congruence.
Qed.

(* functional: the documented value is unique *)
Lemma col_key_fun c s s' : col_key c s -> col_key c s' -> s = s'.
Proof. intros H H'. inversion H; subst; inversion H'; reflexivity. Qed.

Lemma documented_value_fun e fc d el los name x y :
  documented_value e fc d el los name x -> documented_value e fc d el los name y -> x = y.
Proof.
  intros (f1 & o1 & k1 & j1 & F1 & O1 & K1 & J1 & N1) (f2 & o2 & k2 & j2 & F2 & O2 & K2 & J2 & N2).
  assert (Ef : f1 = f2).
  { destruct F1 as [b1 d1 B1 D1]. destruct F2 as [b2 d2 B2 D2].
    assert (b1 = b2). { inversion B1; inversion B2; subst; auto; unfold in_S_band, in_Ka_band in *; lra. }
    assert (d1 = d2). { inversion D1; subst; inversion D2; subst; auto. }
    subst. reflexivity. }
  subst f2. assert (o1 = o2) by congruence. subst o2.
  assert (Ek : k1 = k2).
  { inversion K1 as [C1 | c1 s1 X1 Y1 Z1 W1]; inversion K2 as [C2 | c2 s2 X2 Y2 Z2 W2]; subst; auto.
    - exfalso. intuition congruence.
    - exfalso. intuition congruence.
    - apply nearest_ten_unique in Z1. apply nearest_ten_unique in Z2. subst.
      rewrite (col_key_fun _ _ _ W1 W2). reflexivity. }
  subst k2. assert (j1 = j2) by congruence. subst j2.
  inversion N1; subst; inversion N2; subst; reflexivity.
Qed.

(* numeric facts in documented form *)
Lemma documented_range sc los name lo hi : accepted sc -> In (name, (lo, hi)) ranges ->
  forall x, documented_value (sc_env sc) (sc_fc sc) (sc_dir sc) (sc_elev sc) los name x ->
  exists r, x = Fin r /\ Q2R lo <= r <= Q2R hi.
Proof.
  intros Ha Hn x Hx. assert (Ha' := Ha). destruct Ha' as [Hd Hb He Hl Ht Hnl].
  destruct (range_lookup (sc_env sc) (dir_ul (sc_dir sc)) (is_s_band (sc_fc sc)) los
     (angle_col (sc_elev sc)) name lo hi (angle_col_in _ He) Hn) as (v & r & H1 & H2 & H3).
  assert (Hv : plookup (param_key name (angle_str (sc_elev sc)))
     (if los then sc_plos sc else sc_pnlos sc) = Ok v)
    by (destruct los; [rewrite Ht | rewrite Hnl]; exact H1).
  exists r. split; [| exact H3]. rewrite <- H2.
  exact (documented_value_fun _ _ _ _ _ _ _ _ Hx (documented sc los name v Ha Hv)).
Qed.

Lemma documented_losp sc los x :
  accepted sc ->
  documented_value (sc_env sc) (sc_fc sc) (sc_dir sc) (sc_elev sc) los "LoS_p" x ->
  exists v r, plookup ("LoS_p_" ++ string_of_Z (angle_col (sc_elev sc)))
     (tbl (sc_env sc) (dir_ul (sc_dir sc)) (is_s_band (sc_fc sc)) los) = Ok v /\
    pval_ext v = Fin r /\ x = Fin r.
Proof.
  intros Ha Hx. assert (Ha' := Ha). destruct Ha' as [Hd Hb He Hl Ht Hnl].
  destruct (losp_get (sc_env sc) (dir_ul (sc_dir sc)) (is_s_band (sc_fc sc)) los
     (angle_col (sc_elev sc)) (angle_col_in _ He)) as (v & q & H1 & _ & H2).
  exists v, (Q2R q). split; [exact H1|]. split; [exact H2|]. rewrite <- H2.
  apply (documented_value_fun _ _ _ _ _ _ _ _ Hx).
  apply (documented sc los "LoS_p" v Ha). destruct los; [rewrite Ht | rewrite Hnl]; exact H1.
Qed.

Lemma table_sanity e fc ut bs d el pl sf dop sc :
  scenario_init e fc ut bs d el pl sf dop = Ok sc ->
  forall los x name, documented_value e fc d el los name x ->
    (In name std_names -> exists r, x = Fin r /\ 0 <= r) /\
    (In name corr_dist_names -> exists r, x = Fin r /\ 0 < r) /\
    (name = "rTau" -> exists r, x = Fin r /\ 1 < r) /\
    (name = "LoS_p" -> exists r, x = Fin r /\ 0 <= r <= 1) /\
    (name = "numClusters" -> exists r, x = Fin r /\ 2 <= r) /\
    (In name spread_names -> exists r, x = Fin r /\ 0 <= r).
Proof.
  intros H los x name Hx.
  destruct (init_accepted _ _ _ _ _ _ _ _ _ _ H) as (Ha & <- & <- & <- & <- & _).
  assert (K : forall lo hi, In (name, (lo, hi)) ranges -> exists r, x = Fin r /\ Q2R lo <= r <= Q2R hi)
    by (intros lo hi Hi; exact (documented_range sc los name lo hi Ha Hi x Hx)).
  assert (K' : forall (P : R -> Prop) lo hi, In (name, (lo, hi)) ranges ->
     (forall r, Q2R lo <= r <= Q2R hi -> P r) -> exists r, x = Fin r /\ P r).
  { intros P lo hi Hi HP. destruct (K lo hi Hi) as (r & E & B). exists r. auto. }
  assert (Z0 : Q2R 0 = 0) by (unfold Q2R; cbn; lra).
  assert (Z1 : Q2R 1 = 1) by (unfold Q2R; cbn; lra).
  assert (Z2 : Q2R 2 = 2) by (unfold Q2R; cbn; lra).
  assert (Z11 : Q2R 11 = 11) by (unfold Q2R; cbn; lra).
  repeat split; intros Hn.
  - cbn [std_names In] in Hn.
    destruct Hn as [<- | [<- | [<- | [<- | [<- | [<- | [<- | [<- | []]]]]]]]];
    (eapply K'; [pick | intros r Hr; lra]).
  - cbn [corr_dist_names In] in Hn.
    destruct Hn as [<- | [<- | [<- | [<- | [<- | [<- | [<- | []]]]]]]];
    (eapply K'; [pick | intros r Hr; lra]).
  - subst. eapply K'; [pick | intros r Hr; lra].
  - subst. eapply K'; [pick | intros r Hr; lra].
  - subst. eapply K'; [pick | intros r Hr; lra].
  - cbn [spread_names In] in Hn.
    destruct Hn as [<- | [<- | [<- | []]]]; (eapply K'; [pick | intros r Hr; lra]).
Qed.

Lemma losp_monotone e fc ut bs d el1 el2 pl sf dop sc1 sc2 los x y :
  scenario_init e fc ut bs d el1 pl sf dop = Ok sc1 ->
  scenario_init e fc ut bs d el2 pl sf dop = Ok sc2 -> el1 <= el2 ->
  documented_value e fc d el1 los "LoS_p" (Fin x) ->
  documented_value e fc d el2 los "LoS_p" (Fin y) -> x <= y.
Proof.
  intros H1 H2 Hle D1 D2.
  destruct (init_accepted _ _ _ _ _ _ _ _ _ _ H1) as (A1 & E1 & F1 & G1 & L1 & _).
  destruct (init_accepted _ _ _ _ _ _ _ _ _ _ H2) as (A2 & E2 & F2 & G2 & L2 & _).
  rewrite <- E1, <- F1, <- G1, <- L1 in D1.
  rewrite <- E2, <- F2, <- G2, <- L2 in D2.
  destruct (documented_losp _ _ _ A1 D1) as (v1 & r1 & P1 & Q1 & R1).
  destruct (documented_losp _ _ _ A2 D2) as (v2 & r2 & P2 & Q2 & R2).
  inversion R1; inversion R2; subst r1 r2.
  rewrite E1, F1, G1, L1 in *. rewrite E2, F2, G2, L2 in *.
  assert (B1 := ac_elev _ A1). assert (B2 := ac_elev _ A2). rewrite L1 in B1. rewrite L2 in B2.
  eapply losp_mono; [apply angle_col_in; exact B1 | apply angle_col_in; exact B2 | | eassumption ..].
  unfold angle_col. assert (M := py_round_mono (el1/10) (el2/10) ltac:(lra)). lia.
Qed.

Lemma losp_same e fc ut bs d el pl sf dop sc x y :
  scenario_init e fc ut bs d el pl sf dop = Ok sc ->
  documented_value e fc d el true "LoS_p" x ->
  documented_value e fc d el false "LoS_p" y -> x = y.
Proof.
  intros H D1 D2.
  destruct (init_accepted _ _ _ _ _ _ _ _ _ _ H) as (A & <- & <- & <- & <- & _).
  destruct (documented_losp _ _ _ A D1) as (v1 & r1 & P1 & Q1 & ->).
  destruct (documented_losp _ _ _ A D2) as (v2 & r2 & P2 & Q2 & ->).
  f_equal. eapply losp_agree; [apply angle_col_in; exact (ac_elev _ A) | eassumption ..].
Qed.

(* tables actually loaded (C02) *)
Lemma tables_selected e fc ut bs d el pl sf dop sc :
  scenario_init e fc ut bs d el pl sf dop = Ok sc ->
  forall los : bool, exists file content, right_file e fc d los file /\ open_model file = Ok content /\
    load_entries content = Ok (if los then sc_plos sc else sc_pnlos sc) /\
    forall file', right_file e fc d los file' -> file' = file.
Proof.
  intros H los.
  destruct (init_accepted _ _ _ _ _ _ _ _ _ _ H) as (A & <- & <- & <- & <- & _).
  destruct A as [Hd Hb He Hl Ht Hn].
  set (f := fname (sc_env sc) (dir_ul (sc_dir sc)) (is_s_band (sc_fc sc)) los).
  exists f, (raw (sc_env sc) (dir_ul (sc_dir sc)) (is_s_band (sc_fc sc)) los).
  split; [apply right_file_fname; assumption|].
  split; [apply load_raw|]. split.
  - assert (L := load_tbl (sc_env sc) (dir_ul (sc_dir sc)) (is_s_band (sc_fc sc)) los).
    unfold load_params in L. rewrite load_raw in L. cbn [bind] in L.
    rewrite L. destruct los; congruence.
  - intros f' F'. assert (F := right_file_fname (sc_env sc) (sc_fc sc) (sc_dir sc) los Hd Hb).
    fold f in F. destruct F as [b1 d1 B1 D1]. destruct F' as [b2 d2 B2 D2].
    assert (b1 = b2). { inversion B1; inversion B2; subst; auto; unfold in_S_band, in_Ka_band in *; lra. }
    assert (d1 = d2). { inversion D1 as [E | E]; rewrite <- E in D2; inversion D2; reflexivity. }
    subst. reflexivity.
Qed.

Lemma direct_lookups sc : accepted sc ->
  (exists n1, num_clusters_los sc = Ok (PInt n1) /\ (2 <= n1 <= 4)%Z) /\
  (exists n2, num_clusters_nlos sc = Ok (PInt n2) /\ (2 <= n2 <= 4)%Z) /\
  (exists v r, los_probability sc = Ok v /\ pval_ext v = Fin r /\ 0 <= r <= 1) /\
  (exists v r, clutter_loss sc = Ok v /\ pval_ext v = Fin r /\ 0 <= r) /\
  (exists v r, sigma_sf_los sc = Ok v /\ pval_ext v = Fin r /\ 0 <= r) /\
  (exists v r, sigma_sf_nlos sc = Ok v /\ pval_ext v = Fin r /\ 0 <= r).
Proof.
  intros [Hd Hb He Hl Ht Hn].
  assert (Hc := angle_col_in _ He).
  assert (Z0 : Q2R 0 = 0) by (unfold Q2R; cbn; lra).
  assert (Z1 : Q2R 1 = 1) by (unfold Q2R; cbn; lra).
  assert (NC : forall los, exists n, plookup ("numClusters_" ++ angle_str (sc_elev sc))
     (tbl (sc_env sc) (dir_ul (sc_dir sc)) (is_s_band (sc_fc sc)) los) = Ok (PInt n) /\ (2 <= n <= 4)%Z).
  { intros los. destruct (range_lookup (sc_env sc) (dir_ul (sc_dir sc)) (is_s_band (sc_fc sc)) los
      (angle_col (sc_elev sc)) "numClusters" 2 4 Hc) as (v & r & V1 & V2 & V3); [pick|].
    assert (K := for_cols_spec _ nc_int (sc_env sc) (dir_ul (sc_dir sc)) (is_s_band (sc_fc sc)) los _ Hc).
    cbv beta in K. unfold plookup in *.
    change (param_key "numClusters" (string_of_Z (angle_col (sc_elev sc))))
      with ("numClusters_" ++ angle_str (sc_elev sc)) in *.
    destruct (plookup_opt _ _) as [w |]; [| discriminate]. inversion V1; subst w.
    destruct v as [| z |]; try discriminate. exists z. split; [reflexivity|].
    cbn in V2. inversion V2; subst r. unfold Q2R in V3; cbn in V3.
    split; apply le_IZR; lra. }
  assert (RG : forall los name lo hi, In (name, (lo, hi)) ranges -> exists v r,
     plookup (param_key name (angle_str (sc_elev sc)))
     (tbl (sc_env sc) (dir_ul (sc_dir sc)) (is_s_band (sc_fc sc)) los) = Ok v /\
     pval_ext v = Fin r /\ Q2R lo <= r <= Q2R hi).
  { intros los name lo hi Hi. exact (range_lookup _ _ _ _ _ _ _ _ Hc Hi). }
  split; [| split; [| split; [| split; [| split]]]].
  - unfold num_clusters_los. rewrite Ht. exact (NC true).
  - unfold num_clusters_nlos. rewrite Hn. exact (NC false).
  - destruct (RG true "LoS_p" 0%Q 1%Q) as (v & r & V1 & V2 & V3); [pick|].
    exists v, r. unfold los_probability. rewrite Ht. split; [exact V1|]. split; [exact V2|]. lra.
  - assert (K := for_cols_spec _ cl_ok (sc_env sc) (dir_ul (sc_dir sc)) (is_s_band (sc_fc sc)) true _ Hc).
    cbv beta in K. unfold clutter_loss, plookup. rewrite Hn. unfold angle_str.
    destruct (plookup_opt _ _) as [[m x | |] |]; try discriminate.
    exists (PDec m x), (IZR m / 10 ^ x). split; [reflexivity|]. split; [reflexivity|].
    apply Z.leb_le in K. apply IZR_le in K.
    apply Rmult_le_pos; [exact K|]. left. apply Rinv_0_lt_compat, pow_lt. lra.
  - destruct (RG true "sigmaSF" 0%Q 20%Q) as (v & r & V1 & V2 & V3); [pick|].
    exists v, r. unfold sigma_sf_los. rewrite Ht. split; [exact V1|]. split; [exact V2|]. lra.
  - destruct (RG false "sigmaSF" 0%Q 20%Q) as (v & r & V1 & V2 & V3); [pick|].
    exists v, r. unfold sigma_sf_nlos. rewrite Hn. split; [exact V1|]. split; [exact V2|]. lra.
Qed.

Lemma lookups_never_fail e fc ut bs d el pl sf dop sc :
  scenario_init e fc ut bs d el pl sf dop = Ok sc ->
  (forall (los : link -> bool) name, In name link_parameter_names ->
     exists f, get_param sc los name = Ok f /\
       forall l, pval_ext (f l) = NegInf ->
         d = "downlink" /\ (name = "muASD" \/ name = "muZSD")) /\
  (exists n1, num_clusters_los sc = Ok (PInt n1) /\ (2 <= n1 <= 4)%Z) /\
  (exists n2, num_clusters_nlos sc = Ok (PInt n2) /\ (2 <= n2 <= 4)%Z) /\
  (exists v r, los_probability sc = Ok v /\ pval_ext v = Fin r /\ 0 <= r <= 1) /\
  (exists v r, clutter_loss sc = Ok v /\ pval_ext v = Fin r /\ 0 <= r) /\
  (exists v r, sigma_sf_los sc = Ok v /\ pval_ext v = Fin r /\ 0 <= r) /\
  (exists v r, sigma_sf_nlos sc = Ok v /\ pval_ext v = Fin r /\ 0 <= r).
Proof.
  intros H. destruct (init_accepted _ _ _ _ _ _ _ _ _ _ H) as (A & <- & <- & <- & <- & _).
  split; [| exact (direct_lookups sc A)].
  intros los name Hn. destruct (get_param_doc sc los name A Hn) as (f & Hf & Hl).
  exists f. split; [exact Hf|]. intros l. exact (proj2 (Hl l)).
Qed.

Lemma documented_exists e fc ut bs d el pl sf dop sc :
  scenario_init e fc ut bs d el pl sf dop = Ok sc ->
  forall los name, In name (link_parameter_names ++ ["LoS_p"; "numClusters"]) ->
    exists x, documented_value e fc d el los name x.
Proof.
  intros H los name Hn. destruct (init_accepted _ _ _ _ _ _ _ _ _ _ H) as (A & <- & <- & <- & <- & _).
  assert (Hr : In name requested).
  { apply in_app_or in Hn. destruct Hn as [Hn | [<- | [<- | []]]].
    - apply link_names_requested, Hn.
    - cbn; tauto.
    - cbn; tauto. }
  destruct (look_name sc los name A Hr) as (v & Hv & _).
  exists (pval_ext v). exact (documented sc los name v A Hv).
Qed.

Lemma per_link_parameter e fc ut bs d el pl sf dop sc :
  scenario_init e fc ut bs d el pl sf dop = Ok sc ->
  forall (los : link -> bool) name, In name link_parameter_names ->
    exists f, get_param sc los name = Ok f /\
      forall l, documented_value e fc d el (los l) name (pval_ext (f l)) /\
        forall x, documented_value e fc d el (los l) name x -> x = pval_ext (f l).
Proof.
  intros H los name Hn. destruct (init_accepted _ _ _ _ _ _ _ _ _ _ H) as (A & <- & <- & <- & <- & _).
  destruct (get_param_doc sc los name A Hn) as (f & Hf & Hl).
  exists f. split; [exact Hf|]. intros l. destruct (Hl l) as [Hd _]. split; [exact Hd|].
  intros x Hx. exact (documented_value_fun _ _ _ _ _ _ _ _ Hx Hd).
Qed.
