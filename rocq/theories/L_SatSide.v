(* Lemmas for C108: the rays of a link seen from the satellite. *)
From Coq Require Import Reals String List Bool Arith Lia Lra ZArith QArith Qreals Permutation Sorting.Sorted.
From Verif Require Import M_Base L_Base M_Params S_Config L_Params L_Config M_Geometry M_Pathloss M_Scenario
  M_Lsp S_Linear L_Linear S_Lsp S_Topology L_Pathloss L_Trig L_Geometry L_Scenario L_Fresh L_Topology L_Corr L_Lsp
  S_Pathloss L_Loss M_Rays S_Rays L_Rays L_RaysEx M_Antenna L_Antenna M_Cplx M_Coeff S_Coeff L_Rotation L_Coeff M_Channel S_Channel L_Chol L_Channel L_Link
  S_Ray L_Ray L_MeanLinkEx.
Import ListNotations.
Open Scope string_scope.
Open Scope list_scope.
Open Scope R_scope.

(* ---- the tables ---- *)
Lemma casd_values : for_cols (fun e ul sb los c => match e with Urban => negb (Qle_bool (qlook e ul sb los c "cASD") 0) && Qle_bool (qlook e ul sb los c "cASD") 7
  | _ => Qeq_bool (qlook e ul sb los c "cASD") 0 end) = true.
Proof. vm_compute. reflexivity. Qed.

Lemma casd_value sc los x : accepted sc ->
  documented_value (sc_env sc) (sc_fc sc) (sc_dir sc) (sc_elev sc) los "cASD" (Fin x) ->
  (sc_env sc <> Urban -> x = 0) /\ (sc_env sc = Urban -> 0 < x <= 7).
Proof.
  intros Ha D. rewrite (doc_qlook sc los "cASD" x Ha) by (try exact D; cbn; tauto).
  assert (F := for_cols_spec _ casd_values (sc_env sc) (dir_ul (sc_dir sc)) (is_s_band (sc_fc sc)) los (angle_col (sc_elev sc))
    (angle_col_in _ (ac_elev _ Ha))). cbv beta in F.
  set (q := qlook _ _ _ _ _ _) in *.
  assert (Z : Q2R 0 = 0) by (unfold Q2R; cbn; lra). split.
  - intros N. rewrite <- Z. apply Qeq_eqR, Qeq_bool_eq. destruct (sc_env sc); [exact F | congruence | exact F].
  - intros E. rewrite E in F. apply andb_true_iff in F. destruct F as [F1 F2]. apply negb_true_iff in F1. split.
    + rewrite <- Z. apply Qlt_Rlt. destruct (Qlt_le_dec 0 q) as [X|X]; [exact X|]. apply Qle_bool_iff in X. congruence.
    + replace 7 with (Q2R 7) by (unfold Q2R; cbn; lra). apply Qle_Rle, Qle_bool_iff, F2.
Qed.

Lemma zsd_up_values : for_cols (fun e ul sb los c => negb ul ||
  match plookup_opt (param_key "muZSD" (string_of_Z c)) (tbl e ul sb los) with
  | Some v => match pval_Q v with Some q => Qle_bool q 2 | _ => false end | None => false end) = true.
Proof. vm_compute. reflexivity. Qed.

Lemma zsd_up sc los : accepted sc -> sc_dir sc = "uplink" ->
  exists m, documented_value (sc_env sc) (sc_fc sc) (sc_dir sc) (sc_elev sc) los "muZSD" (Fin m) /\ m <= 2.
Proof.
  intros Ha Hd. assert (Ha' := Ha). destruct Ha' as [_ Hb He Hl Ht Hnl].
  assert (F := for_cols_spec _ zsd_up_values (sc_env sc) (dir_ul (sc_dir sc)) (is_s_band (sc_fc sc)) los (angle_col (sc_elev sc))
    (angle_col_in _ He)). cbv beta in F. rewrite Hd in F at 1. cbn [dir_ul String.eqb Ascii.eqb Bool.eqb orb negb] in F.
  change (string_of_Z (angle_col (sc_elev sc))) with (angle_str (sc_elev sc)) in F.
  destruct (plookup_opt (param_key "muZSD" (angle_str (sc_elev sc))) (tbl (sc_env sc) (dir_ul (sc_dir sc)) (is_s_band (sc_fc sc)) los)) as [v |] eqn:E; [| discriminate].
  assert (Hv : plookup (param_key "muZSD" (angle_str (sc_elev sc))) (if los then sc_plos sc else sc_pnlos sc) = Ok v).
  { unfold plookup. destruct los; [rewrite Ht | rewrite Hnl]; rewrite E; reflexivity. }
  assert (D := documented sc los "muZSD" v Ha Hv). rewrite pval_Q_ext in D. destruct (pval_Q v) as [q|]; [|discriminate].
  exists (Q2R q). split; [exact D|]. apply Qle_bool_iff, Qle_Rle in F. replace 2 with (Q2R 2) by (unfold Q2R; cbn; lra). exact F.
Qed.

(* ---- no spread: one angle ---- *)
Lemma azimuth_flat los cphi la p sg z c m : azimuth_angle los 0 0 cphi la p sg z c m = wrap_180 la.
Proof.
  unfold azimuth_angle, azimuth_center, azimuth_prime. f_equal. destruct los; unfold Rdiv; ring.
Qed.

Lemma zenith_flat los cth la zo p sg z c m : zenith_angle ZOD los false 0 0 cth la zo p sg z c m = fold_180 (la + (if los then 0 else zo)).
Proof.
  unfold zenith_angle, zenith_center, zenith_prime. f_equal. destruct los; cbn [andb negb]; unfold Rdiv; ring.
Qed.

Lemma fold_180_id a : 0 <= a <= 180 -> fold_180 a = a.
Proof.
  intros H. unfold fold_180, wrap_angle_0_360. rewrite fmod_id by lra. cbv zeta.
  destruct (Rltb 180 a) eqn:E; [apply Rltb_true in E; lra | reflexivity].
Qed.

Lemma trig_same_angle a b : same_angle a b -> sin (deg_2_rad a) = sin (deg_2_rad b) /\ cos (deg_2_rad a) = cos (deg_2_rad b).
Proof.
  intros [k ->]. unfold deg_2_rad. replace ((b + 360 * IZR k) * (PI / 180)) with (b * (PI / 180) + 2 * IZR k * PI) by field.
  split; [apply L_Trig.sin_period_Z | apply L_Trig.cos_period_Z].
Qed.

Lemma rho_hat_wrap ze az : 0 <= ze <= 180 ->
  rho_hat (deg_2_rad (fold_180 ze)) (deg_2_rad (wrap_180 az)) = rho_hat (deg_2_rad ze) (deg_2_rad az).
Proof.
  intros H. rewrite (fold_180_id _ H). destruct (trig_same_angle _ _ (wrap_180_same az)) as [S C].
  unfold rho_hat. rewrite S, C. reflexivity.
Qed.

(* ---- the departure angles of a link, satellite at 160 km or more ---- *)
Lemma depart_flat sc st ls los g ind bs mask srt lsps d rr b s u r : accepted sc -> ready sc st ls los g ind bs mask ->
  gen_rays srt st mask lsps d = Ok rr -> sc_dir sc = "downlink" -> sc_env sc <> Urban ->
  160000 <= vz (t_at bs 0%nat 0%nat) -> rr b s u = Some r ->
  forall c q, r_zod r c q = deg_2_rad (fold_180 (g_zod g b s u + (if los b s u then 0 else ls_zod_offset ls b s u))) /\
              r_aod r c q = deg_2_rad (wrap_180 (g_aod g b s u)).
Proof.
  intros Ha RD HG Hd He Hh Hr c q.
  destruct (link_angles _ _ _ _ _ _ _ _ _ _ _ _ b s u r RD HG Hr) as (_ & _ & _ & AOD & _ & ZOD' & _). cbv zeta in AOD, ZOD'.
  assert (SH : satellite_height bs = true) by (unfold satellite_height; apply Rleb_true; exact Hh).
  rewrite SH in AOD, ZOD'.
  destruct (rd_col _ _ _ _ _ _ _ _ RD (los b s u)) as [DC _]. unfold documented_column in DC.
  assert (CA : lp_cASD (ls_col ls (los b s u)) = 0) by (eapply casd_value; [exact Ha | apply DC | exact He]).
  assert (MZ : lp_muZSD (ls_col ls (los b s u)) = NegInf).
  { eapply documented_value_fun; [apply DC | apply (zsd_neginf sc (los b s u) Ha Hd)]. }
  rewrite CA in AOD. rewrite MZ in ZOD'. cbn [zsd_floor ext_pow10] in ZOD'. replace (3 / 8 * 0) with 0 in ZOD' by ring.
  rewrite AOD, ZOD', azimuth_flat, zenith_flat. split; reflexivity.
Qed.

Lemma unit_dir_rho z a : unit_dir z a = rho_hat (deg_2_rad z) (deg_2_rad a).
Proof. reflexivity. Qed.

Lemma C108_one_direction_l : forall sc st a dr st' mask srt lsps d rr,
  constructed sc -> set_topology sc st a dr = (st', Ok true) -> compute_clusters_mask st' = Ok mask ->
  gen_rays srt st' mask lsps d = Ok rr -> sc_dir sc = "downlink" -> sc_env sc <> Urban ->
  exists ut bs los, s_ut_loc st' = Some ut /\ s_bs_loc st' = Some bs /\ s_los st' = Some los /\
    (160000 <= vz (t_at bs 0%nat 0%nat) -> forall b s u r, rr b s u = Some r ->
     exists theta phi, (forall c q, r_zod r c q = theta /\ r_aod r c q = phi) /\ 0 <= theta <= PI /\ - PI < phi <= PI /\
       (los b s u = true -> let x := vsub (t_at ut b u) (t_at bs b s) in vscale (vnorm x) (rho_hat theta phi) = x)).
Proof.
  intros sc st a dr st' mask srt lsps d rr Hc H HM HG Hd He.
  destruct (make_ready _ _ _ _ _ Hc H) as (ls & los & g & ind & bs & mask' & RD).
  assert (mask' = mask) by (assert (E := rd_mask _ _ _ _ _ _ _ _ RD); congruence). subst mask'.
  destruct (reported_angles _ _ _ _ _ Hc H) as (ut & bs' & g' & U & B & G & ANG).
  assert (bs' = bs) by (assert (E := rd_bs _ _ _ _ _ _ _ _ RD); congruence). subst bs'.
  assert (g' = g) by (assert (E := rd_geo _ _ _ _ _ _ _ _ RD); congruence). subst g'.
  exists ut, bs, los. split; [exact U|]. split; [exact B|]. split; [apply RD|].
  intros Hh b s u r Hr.
  assert (FL := depart_flat _ _ _ _ _ _ _ _ _ _ _ _ b s u r (constructed_accepted sc Hc) RD HG Hd He Hh Hr).
  eexists. eexists. split; [exact FL|]. split; [apply rad_range0, fold_180_range|]. split; [apply rad_range, wrap_180_range|].
  intros L x. rewrite L. destruct (ANG b s u) as (_ & _ & Z & _ & DIR & _).
  rewrite Rplus_0_r, rho_hat_wrap by exact Z. rewrite <- unit_dir_rho. exact DIR.
Qed.

(* ---- Urban: the rays of a cluster leave at different azimuths ---- *)
Lemma angle_apart a b k : wrap_180 a = wrap_180 b -> a - b = k -> 0 < k < 360 -> False.
Proof.
  intros E D B. destruct (wrap_180_same a) as [i I]. destruct (wrap_180_same b) as [j J]. rewrite E, J in I.
  assert (Q : k = 360 * IZR (j - i)) by (rewrite minus_IZR; lra).
  assert (0 < IZR (j - i) < 1) by lra. destruct H as [H1 H2]. apply lt_IZR in H1, H2. lia.
Qed.

Lemma C108_urban_l : forall sc st a dr st' mask srt lsps d rr,
  constructed sc -> set_topology sc st a dr = (st', Ok true) -> compute_clusters_mask st' = Ok mask -> valid_argsort srt ->
  gen_rays srt st' mask lsps d = Ok rr -> sc_env sc = Urban ->
  exists bs, s_bs_loc st' = Some bs /\
    (160000 <= vz (t_at bs 0%nat 0%nat) -> forall b s u r, rr b s u = Some r ->
     forall c, exists q q', (q < 20)%nat /\ (q' < 20)%nat /\ r_aod r c q <> r_aod r c q').
Proof.
  intros sc st a dr st' mask srt lsps d rr Hc H HM HS HG He.
  destruct (make_ready _ _ _ _ _ Hc H) as (ls & los & g & ind & bs & mask' & RD).
  assert (mask' = mask) by (assert (E := rd_mask _ _ _ _ _ _ _ _ RD); congruence). subst mask'.
  exists bs. split; [apply RD|]. intros Hh b s u r Hr c.
  destruct (link_angles _ _ _ _ _ _ _ _ _ _ _ _ b s u r RD HG Hr) as (_ & _ & _ & AOD & _). cbv zeta in AOD.
  destruct (rd_col _ _ _ _ _ _ _ _ RD (los b s u)) as [DC _]. unfold documented_column in DC.
  assert (CA : 0 < lp_cASD (ls_col ls (los b s u)) <= 7) by (eapply casd_value; [exact (constructed_accepted sc Hc) | apply DC | exact He]).
  destruct (mixing_rearr srt (ad_mix (rd_aod d) b s c) HS) as (_ & _ & SUR).
  destruct (SUR 0%nat ltac:(lia)) as (q & Q & EQ). destruct (SUR 1%nat ltac:(lia)) as (q' & Q' & EQ').
  exists q, q'. split; [exact Q|]. split; [exact Q'|]. rewrite !AOD, EQ, EQ'. intros E.
  assert (P := PI_RGT_0).
  unfold deg_2_rad in E. apply Rmult_eq_reg_r in E; [|lra].
  unfold azimuth_angle in E. eapply angle_apart; [exact E | reflexivity |]. unfold offset. cbn [nth ray_offsets].
  match goal with |- 0 < ?A + _ - _ < _ => generalize A; intros z0 end. lra.
Qed.

(* ---- uplink: the rays of a cluster leave at different zeniths ---- *)
Lemma cone_apart B e : 0 < e <= 40 -> fold_180 (B + e * 0.0447) = fold_180 (B + e * -0.0447) ->
  fold_180 (B + e * 0.0447) = fold_180 (B + e * 0.1413) -> False.
Proof.
  intros He E1 E2.
  destruct (fold_180_cone (B + e * 0.0447)) as [[i I]|[i I]]; destruct (fold_180_cone (B + e * -0.0447)) as [[j J]|[j J]];
    destruct (fold_180_cone (B + e * 0.1413)) as [[k K]|[k K]]; rewrite <- E1 in J; rewrite <- E2 in K;
    rewrite I in J, K.
  all: first [
    assert (X : 0 < IZR (j - i) < 1) by (rewrite minus_IZR; lra); destruct X as [X1 X2]; apply lt_IZR in X1, X2; lia
  | assert (X : 0 < IZR (i - j) < 1) by (rewrite minus_IZR; lra); destruct X as [X1 X2]; apply lt_IZR in X1, X2; lia
  | assert (X : 0 < IZR (k - i) < 1) by (rewrite minus_IZR; lra); destruct X as [X1 X2]; apply lt_IZR in X1, X2; lia
  | assert (X : 0 < IZR (i - k) < 1) by (rewrite minus_IZR; lra); destruct X as [X1 X2]; apply lt_IZR in X1, X2; lia
  | assert (X : 0 < IZR (k - j) < 1) by (rewrite minus_IZR; lra); destruct X as [X1 X2]; apply lt_IZR in X1, X2; lia
  | assert (X : 0 < IZR (j - k) < 1) by (rewrite minus_IZR; lra); destruct X as [X1 X2]; apply lt_IZR in X1, X2; lia ].
Qed.

Lemma C108_uplink_l : forall sc st a dr st' mask srt lsps d rr,
  constructed sc -> set_topology sc st a dr = (st', Ok true) -> compute_clusters_mask st' = Ok mask -> valid_argsort srt ->
  gen_rays srt st' mask lsps d = Ok rr -> sc_dir sc = "uplink" ->
  exists bs, s_bs_loc st' = Some bs /\
    (160000 <= vz (t_at bs 0%nat 0%nat) -> forall b s u r, rr b s u = Some r ->
     forall c, exists q q', (q < 20)%nat /\ (q' < 20)%nat /\ r_zod r c q <> r_zod r c q').
Proof.
  intros sc st a dr st' mask srt lsps d rr Hc H HM HS HG Hd.
  destruct (make_ready _ _ _ _ _ Hc H) as (ls & los & g & ind & bs & mask' & RD).
  assert (mask' = mask) by (assert (E := rd_mask _ _ _ _ _ _ _ _ RD); congruence). subst mask'.
  exists bs. split; [apply RD|]. intros Hh b s u r Hr c.
  destruct (link_angles _ _ _ _ _ _ _ _ _ _ _ _ b s u r RD HG Hr) as (_ & _ & _ & _ & _ & ZOD' & _). cbv zeta in ZOD'.
  destruct (rd_col _ _ _ _ _ _ _ _ RD (los b s u)) as [DC _]. unfold documented_column in DC.
  destruct (zsd_up sc (los b s u) (constructed_accepted sc Hc) Hd) as (m & DM & Hm).
  assert (MZ : lp_muZSD (ls_col ls (los b s u)) = Fin m) by (eapply documented_value_fun; [apply DC | exact DM]).
  rewrite MZ in ZOD'. cbn [zsd_floor ext_pow10] in ZOD'.
  set (e := 3 / 8 * pow10 (Rmax (-100) m)) in *.
  assert (He : 0 < e <= 40).
  { unfold e, pow10. assert (X : Rpower 10 (Rmax (-100) m) <= Rpower 10 2).
    { apply Rle_Rpower; [lra|]. apply Rmax_lub; lra. }
    assert (Y : Rpower 10 2 = 100) by (replace 2 with (INR 2) by (cbn; lra); rewrite Rpower_pow by lra; cbn; lra).
    assert (Z : 0 < Rpower 10 (Rmax (-100) m)) by apply exp_pos. lra. }
  destruct (mixing_rearr srt (ad_mix (rd_zod d) b s c) HS) as (_ & _ & SUR).
  destruct (SUR 0%nat ltac:(lia)) as (q0 & Q0 & E0). destruct (SUR 1%nat ltac:(lia)) as (q1 & Q1 & E1).
  destruct (SUR 2%nat ltac:(lia)) as (q2 & Q2 & E2).
  assert (P := PI_RGT_0).
  destruct (Req_dec (r_zod r c q0) (r_zod r c q1)) as [A|A]; [|exists q0, q1; auto].
  destruct (Req_dec (r_zod r c q0) (r_zod r c q2)) as [B|B]; [|exists q0, q2; auto].
  exfalso. rewrite !ZOD', E0, E1 in A. rewrite !ZOD', E0, E2 in B.
  unfold deg_2_rad in A, B. apply Rmult_eq_reg_r in A; [|lra]. apply Rmult_eq_reg_r in B; [|lra].
  unfold zenith_angle, offset in A, B. cbn [nth ray_offsets] in A, B. exact (cone_apart _ e He A B).
Qed.

(* each half on its own *)
Lemma C108_halves_l : forall sc st a dr st' mask srt lsps d rr,
  constructed sc -> set_topology sc st a dr = (st', Ok true) -> compute_clusters_mask st' = Ok mask ->
  gen_rays srt st' mask lsps d = Ok rr ->
  exists bs g, s_bs_loc st' = Some bs /\ s_geo st' = Some g /\
    (160000 <= vz (t_at bs 0%nat 0%nat) -> forall b s u r, rr b s u = Some r ->
      (sc_env sc <> Urban -> forall c q, same_angle (degrees (r_aod r c q)) (g_aod g b s u)) /\
      (sc_dir sc = "downlink" -> forall c q c' q', r_zod r c q = r_zod r c' q')).
Proof.
  intros sc st a dr st' mask srt lsps d rr Hc H HM HG.
  destruct (make_ready _ _ _ _ _ Hc H) as (ls & los & g & ind & bs & mask' & RD).
  assert (mask' = mask) by (assert (E := rd_mask _ _ _ _ _ _ _ _ RD); congruence). subst mask'.
  exists bs, g. split; [apply RD|]. split; [apply RD|]. intros Hh b s u r Hr.
  destruct (link_angles _ _ _ _ _ _ _ _ _ _ _ _ b s u r RD HG Hr) as (_ & _ & _ & AOD & _ & ZOD' & _). cbv zeta in AOD, ZOD'.
  assert (SH : satellite_height bs = true) by (unfold satellite_height; apply Rleb_true; exact Hh).
  rewrite SH in AOD, ZOD'. assert (Ha := constructed_accepted sc Hc).
  destruct (rd_col _ _ _ _ _ _ _ _ RD (los b s u)) as [DC _]. unfold documented_column in DC. split.
  - intros He c q.
    assert (CA : lp_cASD (ls_col ls (los b s u)) = 0) by (eapply casd_value; [exact Ha | apply DC | exact He]).
    rewrite CA in AOD. rewrite AOD, azimuth_flat, degrees_deg_2_rad. apply wrap_180_same.
  - intros Hd c q c' q'.
    assert (MZ : lp_muZSD (ls_col ls (los b s u)) = NegInf).
    { eapply documented_value_fun; [apply DC | apply (zsd_neginf sc (los b s u) Ha Hd)]. }
    rewrite MZ in ZOD'. cbn [zsd_floor ext_pow10] in ZOD'. replace (3 / 8 * 0) with 0 in ZOD' by ring.
    rewrite !ZOD', !zenith_flat. reflexivity.
Qed.
