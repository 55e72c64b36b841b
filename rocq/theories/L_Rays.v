(* Lemmas on ray generation (C21-C27). *)
From Coq Require Import Reals String List Bool Arith Lia Lra ZArith Permutation Sorting.Sorted.
From Verif Require Import M_Base L_Base M_Params S_Config L_Params L_Config M_Geometry M_Pathloss M_Scenario
  M_Lsp S_Lsp S_Topology L_Pathloss L_Scenario L_Fresh L_Topology L_Corr L_Lsp M_Rays S_Rays.
Import ListNotations.
Open Scope string_scope.
Open Scope list_scope.
Open Scope R_scope.

(* ---- mask ---- *)
Lemma mask_outdoor n1 n2 los c :
  cluster_mask n1 n2 false los c = if Nat.ltb c (if los then n1 else n2) then 0 else 1.
Proof.
  unfold cluster_mask, mask_row, b2r. destruct los; cbn [negb andb]; destruct (Nat.ltb c _); ring.
Qed.

Lemma mask_indoor n1 n2 c : cluster_mask n1 n2 true false c = 1.
Proof. unfold cluster_mask, mask_row, b2r. rewrite Nat.sub_diag. cbn. ring. Qed.

(* ---- delays ---- *)
Lemma reduce_min_spec l : l <> [] -> In (reduce_min l) l /\ forall y, In y l -> reduce_min l <= y.
Proof.
  destruct l as [| x t]; [congruence|]. intros _. cbn [reduce_min]. split; [apply list_min_in|].
  intros y Hy. apply list_min_le, Hy.
Qed.

Lemma reduce_max_spec l : l <> [] -> In (reduce_max l) l /\ forall y, In y l -> y <= reduce_max l.
Proof.
  destruct l as [| x t]; [congruence|]. intros _. cbn [reduce_max]. split; [apply list_max_in|].
  intros y Hy. apply list_max_ge, Hy.
Qed.

Lemma sorted_from_zero l : l <> [] -> let s := rsort (map (fun t => t - reduce_min l) l) in
  length s = length l /\ StronglySorted Rle s /\ nth 0 s 0 = 0 /\ (forall x, In x s -> 0 <= x).
Proof.
  intros Hl s. destruct (reduce_min_spec l Hl) as [H1 H2]. set (m := reduce_min l) in *.
  assert (P : Permutation s (map (fun t => t - m) l)) by apply rsort_perm.
  assert (S : StronglySorted Rle s) by apply rsort_sorted.
  assert (N : forall x, In x s -> 0 <= x).
  { intros x Hx. apply (Permutation_in _ P), in_map_iff in Hx. destruct Hx as (t & <- & Ht).
    specialize (H2 t Ht). lra. }
  split; [unfold s; rewrite rsort_length, map_length; reflexivity|].
  split; [exact S|]. split; [| exact N].
  assert (Z : In 0 s).
  { apply (Permutation_in _ (Permutation_sym P)). apply in_map_iff. exists m. split; [ring | exact H1]. }
  clearbody s. destruct s as [| a s]; [destruct Z|]. cbn.
  inversion S as [| ? ? _ F]; subst. rewrite Forall_forall in F.
  assert (0 <= a) by (apply N; left; reflexivity).
  destruct Z as [-> | Z]; [reflexivity | specialize (F 0 Z); lra].
Qed.

Lemma SS_map_div l k : 0 < k -> StronglySorted Rle l -> StronglySorted Rle (map (fun t => t / k) l).
Proof.
  intros Hk S. induction S as [| a l S IH F]; [constructor|]. cbn. constructor; [exact IH|].
  rewrite Forall_forall in *. intros x Hx. apply in_map_iff in Hx. destruct Hx as (t & <- & Ht).
  apply Rmult_le_compat_r; [left; apply Rinv_0_lt_compat, Hk | apply F, Ht].
Qed.

Lemma nth_map_div l k c : nth c (map (fun t => t / k) l) 0 = nth c l 0 / k.
Proof.
  revert c. induction l as [| a l IH]; intros [| c]; cbn; try (unfold Rdiv; ring). apply IH.
Qed.

(* the LoS scaling is positive for Ricean K factors of at least -63 dB *)
Lemma delay_scaling_pos k : pow10 (- 6.3) <= k -> 0 < delay_scaling k.
Proof.
  intros H. assert (K0 := pow10_pos (- 6.3)).
  assert (L : -63 <= 10 * log10 k).
  { assert (A : - 6.3 <= log10 k).
    { rewrite <- (log10_pow10 (- 6.3)). destruct H as [H | <-]; [left; apply log10_increasing; lra | lra]. }
    lra. }
  unfold delay_scaling, sq. set (x := 10 * log10 k) in *.
  replace (0.7705 - 0.0433 * x + 0.0002 * (x * x) + 0.000017 * x ^ 3)
    with (0.000017 * ((x - 25.5) * (x - 25.5) * (x + 62.76)) + (0.7705 - 0.000017 * (25.5 * 25.5 * 62.76))
          + (- 0.0433 - 0.000017 * (25.5 * 25.5 - 2 * 25.5 * 62.76)) * x
          + (0.0002 - 0.000017 * (62.76 - 51)) * (x * x)) by lra.
  destruct (Rle_dec (-62.76) x) as [G | G].
  - assert (0 <= (x - 25.5) * (x - 25.5) * (x + 62.76)) by (apply Rmult_le_pos; [apply Rle_0_sqr | lra]). nra.
  - nra.
Qed.

(* and negative at -65 dB *)
Lemma delay_scaling_neg : delay_scaling (pow10 (- 6.5)) < 0.
Proof. unfold delay_scaling, sq. rewrite log10_pow10. lra. Qed.

(* ---- powers ---- *)
Lemma power_unnorm_sign rtau ds zeta mask z un c :
  (mask c = 0 -> 0 < power_unnormalized rtau ds zeta mask z un c) /\
  (mask c = 1 -> power_unnormalized rtau ds zeta mask z un c = 0).
Proof.
  unfold power_unnormalized. split; intros ->; [| ring].
  rewrite Rminus_0_r, Rmult_1_r. apply Rmult_lt_0_compat; [apply exp_pos | apply pow10_pos].
Qed.

Lemma nth_map_seq (f : nat -> R) n c : (c < n)%nat -> nth c (map f (seq 0 n)) 0 = f c.
Proof.
  intros H. rewrite (nth_indep _ 0 (f 0%nat)) by (rewrite map_length, seq_length; exact H).
  rewrite map_nth, seq_nth by exact H. reflexivity.
Qed.

Lemma cluster_powers_outdoor m n rtau ds zeta mask z un : (1 <= m <= n)%nat ->
  (forall c, mask c = if Nat.ltb c m then 0 else 1) ->
  exists p, cluster_powers n rtau ds zeta mask z un = Some p /\ length p = n /\ Rsum p = 1 /\
    (forall c, (c < m)%nat -> 0 < nth c p 0 <= 1) /\
    (forall c, (m <= c)%nat -> nth c p 0 = 0) /\
    (forall c c', (c < m)%nat -> (c' < m)%nat ->
       nth c p 0 / nth c' p 0 =
       power_unnormalized rtau ds zeta mask z un c / power_unnormalized rtau ds zeta mask z un c').
Proof.
  intros Hm HM. unfold cluster_powers, normalize.
  set (f := power_unnormalized rtau ds zeta mask z un). set (l := map f (seq 0 n)).
  assert (F0 : forall c, (c < m)%nat -> 0 < f c).
  { intros c Hc. apply power_unnorm_sign. rewrite HM. destruct (Nat.ltb_spec c m); [reflexivity | lia]. }
  assert (F1 : forall c, (m <= c)%nat -> f c = 0).
  { intros c Hc. apply power_unnorm_sign. rewrite HM. destruct (Nat.ltb_spec c m); [lia | reflexivity]. }
  assert (NN : forall y, In y l -> 0 <= y).
  { intros y Hy. apply in_map_iff in Hy. destruct Hy as (c & <- & _).
    destruct (Nat.lt_ge_cases c m) as [H | H]; [left; apply F0, H | rewrite (F1 c H); lra]. }
  assert (SP : 0 < Rsum l).
  { apply Rsum_pos; [exact NN|]. exists (f 0%nat). split; [| apply F0; lia].
    apply in_map_iff. exists 0%nat. split; [reflexivity | apply in_seq; lia]. }
  destruct (Req_EM_T (Rsum l) 0) as [E | _]; [lra|].
  exists (map (fun p => p / Rsum l) l). split; [reflexivity|].
  split; [unfold l; rewrite !map_length, seq_length; reflexivity|].
  split; [rewrite Rsum_map_div; field; lra|].
  assert (NT : forall c, (c < n)%nat -> nth c (map (fun p => p / Rsum l) l) 0 = f c / Rsum l).
  { intros c Hc. unfold l at 2. rewrite map_map. rewrite (nth_map_seq (fun x => f x / Rsum l) n c Hc). reflexivity. }
  split; [| split].
  - intros c Hc. rewrite NT by lia. split; [apply Rdiv_lt_0_compat; [apply F0, Hc | exact SP]|].
    apply Rmult_le_reg_r with (Rsum l); [exact SP|]. unfold Rdiv. rewrite Rmult_assoc, Rinv_l, Rmult_1_r, Rmult_1_l by lra.
    apply Rsum_le_elem; [exact NN|]. apply in_map_iff. exists c. split; [reflexivity | apply in_seq; lia].
  - intros c Hc. destruct (Nat.lt_ge_cases c n) as [H | H].
    + rewrite NT by exact H. rewrite F1 by exact Hc. unfold Rdiv. ring.
    + apply nth_overflow. unfold l. rewrite !map_length, seq_length. exact H.
  - intros c c' Hc Hc'. rewrite !NT by lia. assert (H := F0 c' Hc'). field. lra.
Qed.

Lemma cluster_powers_all_masked n rtau ds zeta mask z un :
  (forall c, mask c = 1) -> cluster_powers n rtau ds zeta mask z un = None.
Proof.
  intros HM. unfold cluster_powers, normalize. destruct (Req_EM_T _ 0) as [_ | N]; [reflexivity|].
  exfalso. apply N. rewrite (Rsum_ext _ _ (fun _ => 0)).
  - rewrite Rsum_const. ring.
  - intros c _. apply power_unnorm_sign, HM.
Qed.

Lemma powers_for_angles_spec (los : bool) k p : 0 < k -> p <> [] ->
  let q := powers_for_angles los k p in
  length q = length p /\
  Rsum q = (if los then (Rsum p + k) / (k + 1) else Rsum p) /\
  (forall c, nth c q 0 = if los then nth c p 0 / (k + 1) + (if Nat.eqb c 0 then k / (k + 1) else 0) else nth c p 0).
Proof.
  intros Hk Hp. destruct p as [| a t]; [congruence|]. unfold powers_for_angles. destruct los; cbv zeta; [| auto].
  split; [cbn [length]; rewrite map_length; reflexivity|].
  split; [cbn [Rsum]; rewrite Rsum_scale; field; lra|].
  intros [| c]; cbn [nth Nat.eqb]; [field; lra|].
  rewrite <- (Rmult_0_r (1 / (k + 1))) at 1. rewrite (map_nth (fun q => 1 / (k + 1) * q)). field. lra.
Qed.

(* ---- wrapping ---- *)
Lemma wrap_180_range a : -180 < wrap_180 a <= 180.
Proof.
  unfold wrap_180, wrap_angle_0_360. assert (H := fmod_range a 360 ltac:(lra)).
  destruct (Rltb 180 (fmod a 360)) eqn:E; [apply Rltb_true in E | apply Rltb_false in E]; lra.
Qed.

Lemma wrap_180_same a : same_angle (wrap_180 a) a.
Proof.
  unfold wrap_180, wrap_angle_0_360, same_angle. destruct (fmod_congr a 360) as [k E].
  destruct (Rltb 180 (fmod a 360)); rewrite E.
  - exists (- k - 1)%Z. rewrite minus_IZR, opp_IZR. ring.
  - exists (- k)%Z. rewrite opp_IZR. ring.
Qed.

Lemma fold_180_range a : 0 <= fold_180 a <= 180.
Proof.
  unfold fold_180, wrap_angle_0_360. assert (H := fmod_range a 360 ltac:(lra)).
  destruct (Rltb 180 (fmod a 360)) eqn:E; [apply Rltb_true in E | apply Rltb_false in E]; lra.
Qed.

Lemma fold_180_cone a : same_cone (fold_180 a) a.
Proof.
  unfold fold_180, wrap_angle_0_360, same_cone, same_angle. destruct (fmod_congr a 360) as [k E].
  destruct (Rltb 180 (fmod a 360)); rewrite E.
  - right. exists (k + 1)%Z. rewrite plus_IZR. ring.
  - left. exists (- k)%Z. rewrite opp_IZR. ring.
Qed.

Lemma cos_period_Z x k : cos (x + 2 * PI * IZR k) = cos x.
Proof.
  destruct (Z_le_gt_dec 0 k) as [H | H].
  - replace (IZR k) with (INR (Z.to_nat k)) by (rewrite INR_IZR_INZ, Z2Nat.id by exact H; reflexivity).
    replace (x + 2 * PI * INR (Z.to_nat k)) with (x + 2 * INR (Z.to_nat k) * PI) by ring. apply cos_period.
  - set (n := Z.to_nat (- k)). assert (E : IZR k = - INR n).
    { unfold n. rewrite INR_IZR_INZ, Z2Nat.id by lia. rewrite opp_IZR. ring. }
    rewrite E, <- (cos_period (x + 2 * PI * - INR n) n). f_equal. ring.
Qed.

Lemma cone_cos a b : same_cone a b -> cos (a * (PI / 180)) = cos (b * (PI / 180)).
Proof.
  intros [[k ->] | [k ->]].
  - replace ((b + 360 * IZR k) * (PI / 180)) with (b * (PI / 180) + 2 * PI * IZR k) by field. apply cos_period_Z.
  - replace ((- b + 360 * IZR k) * (PI / 180)) with (- (b * (PI / 180)) + 2 * PI * IZR k) by field.
    rewrite cos_period_Z. apply cos_neg.
Qed.

(* ---- coupling ---- *)
Lemma perm_nth_rearr l n : Permutation l (seq 0 n) -> rearrangement n (fun r => nth r l 0%nat).
Proof.
  intros P. assert (L : length l = n) by (rewrite (Permutation_length P); apply seq_length).
  split; [| split].
  - intros r Hr. assert (I : In (nth r l 0%nat) (seq 0 n)) by (apply (Permutation_in _ P), nth_In; lia).
    apply in_seq in I. lia.
  - intros r r' Hr Hr' E. assert (ND : NoDup l) by (apply (Permutation_NoDup (Permutation_sym P)), seq_NoDup).
    apply (proj1 (NoDup_nth l 0%nat) ND r r'); [lia | lia | exact E].
  - intros q Hq. assert (I : In q l) by (apply (Permutation_in _ (Permutation_sym P)), in_seq; lia).
    destruct (In_nth l q 0%nat I) as (r & Hr & E). exists r. split; [lia | exact E].
Qed.

Definition mixing (srt : list R -> list nat) (rn : nat -> R) (r : nat) : nat :=
  nth r (srt (map rn (seq 0 rays_per_cluster))) 0%nat.

Lemma mixing_rearr srt rn : valid_argsort srt -> rearrangement 20 (mixing srt rn).
Proof.
  intros V. unfold mixing. apply perm_nth_rearr.
  destruct (V (map rn (seq 0 rays_per_cluster))) as [P _]. rewrite map_length, seq_length in P. exact P.
Qed.

Lemma rearr_perm n f : rearrangement n f -> Permutation (map f (seq 0 n)) (seq 0 n).
Proof.
  intros (H1 & H2 & H3). apply NoDup_Permutation.
  - assert (G : forall l, NoDup l -> (forall x, In x l -> (x < n)%nat) -> NoDup (map f l)).
    { intros l N. induction N as [| a l Na N IH]; intros Hl; [constructor|]. cbn. constructor.
      - intros I. apply in_map_iff in I. destruct I as (y & E & Hy). apply Na.
        rewrite (H2 a y); [exact Hy | apply Hl; left; reflexivity | apply Hl; right; exact Hy | congruence].
      - apply IH. intros x Hx. apply Hl. right. exact Hx. }
    apply G; [apply seq_NoDup|]. intros x Hx. apply in_seq in Hx. lia.
  - apply seq_NoDup.
  - intros x. rewrite in_map_iff, in_seq. split.
    + intros (y & <- & Hy). apply in_seq in Hy. assert (f y < n)%nat by (apply H1; lia). lia.
    + intros Hx. destruct (H3 x) as (r & Hr & E); [lia|]. exists r. split; [exact E | apply in_seq; lia].
Qed.

Lemma degrees_deg_2_rad a : degrees (deg_2_rad a) = a.
Proof. unfold degrees, deg_2_rad. field. apply PI_neq0. Qed.

Lemma deg_range lo hi a : lo <= a <= hi -> deg_2_rad lo <= deg_2_rad a <= deg_2_rad hi.
Proof.
  unfold deg_2_rad. assert (P := PI_RGT_0). intros H. split; apply Rmult_le_compat_r; lra.
Qed.

(* ---- the whole generator after an updating call ---- *)
Record ready (sc : scenario) (st : state) (ls : lspstat) (los : grid bool) (g : geo) (ind : tens bool)
    (bs : tens vec3) (mask : grid (nat -> R)) : Prop := {
  rd_ls : s_lsp st = Some ls; rd_los : s_los st = Some los; rd_geo : s_geo st = Some g;
  rd_in : s_in st = Some ind; rd_bs : s_bs_loc st = Some bs;
  rd_mask : compute_clusters_mask st = Ok mask;
  rd_col : forall l, documented_column sc l (ls_col ls l) /\ good_column (dir_ul (sc_dir sc)) (ls_col ls l);
  rd_mean : forall b s u i, ls_mean ls b s u i = lsp_log_mean (ls_col ls (los b s u)) i;
  rd_nc : forall l, (2 <= n_clusters ls l <= 4)%nat /\
     documented_value (sc_env sc) (sc_fc sc) (sc_dir sc) (sc_elev sc) l "numClusters" (Fin (INR (n_clusters ls l)));
  rd_maskv : forall b s u, mask b s u = cluster_mask (n_clusters ls true) (n_clusters ls false) (t_at ind b u) (los b s u);
  rd_excl : forall b s u, t_at ind b u = true -> los b s u = false;
  rd_zoff : exists ut, s_ut_loc st = Some ut /\ forall b s u,
    ls_zod_offset ls b s u = zod_offset_of (los b s u) (dist_2d (t_at ut b u) (t_at bs b s)) }.

Lemma make_ready sc st a dr st' : constructed sc -> set_topology sc st a dr = (st', Ok true) ->
  exists ls los g ind bs mask, ready sc st' ls los g ind bs mask.
Proof.
  intros Hc H. assert (Ha := constructed_accepted sc Hc).
  destruct (update_content _ _ _ _ _ Ha H) as (ut & bs & ind & p & U1 & U2 & U3 & _ & _ & _ & _ & _ & _ & _ & _ &
    (g & G1 & _) & (los & L1 & L2 & cl & cn & K1 & K2 & K3 & _) & _).
  set (ls := {| ls_col := fun x : bool => if x then cl else cn;
            ls_mean := fun b s u i => lsp_log_mean (if los b s u then cl else cn) i;
            ls_std := fun b s u i => lsp_log_std (if los b s u then cl else cn) i;
            ls_zod_offset := fun b s u => zod_offset_of (los b s u) (dist_2d (t_at ut b u) (t_at bs b s)) |}) in *.
  exists ls, los, g, ind, bs, (fun b s u => cluster_mask (n_clusters ls true) (n_clusters ls false) (t_at ind b u) (los b s u)).
  assert (COL : forall l, documented_column sc l (ls_col ls l) /\ good_column (dir_ul (sc_dir sc)) (ls_col ls l)).
  { intros l. cbn [ls_col ls]. destruct l; (split; [apply link_column_documented; assumption | eapply link_column_good; eassumption]). }
  constructor; try assumption; try reflexivity.
  - unfold compute_clusters_mask. rewrite K3, L1, U3. reflexivity.
  - intros l. destruct (COL l) as [D G]. assert (N := gc_nc _ _ G). unfold n_clusters. split; [lia|].
    rewrite INR_IZR_INZ, Z2Nat.id by lia. unfold documented_column in D. tauto.
  - intros b s u Hi. rewrite L2. unfold sample_los. rewrite Hi. apply andb_false_r.
  - exists ut. split; [assumption | reflexivity].
Qed.

Lemma gen_ready sc st ls los g ind bs mask srt lsps d : ready sc st ls los g ind bs mask ->
  gen_rays srt st mask lsps d = Ok (fun b s u =>
      link_rays srt (num_clusters_max ls) (los b s u) (t_at ind b u) (satellite_height bs)
        (ls_col ls (los b s u)) (ls_mean ls b s u 6%nat) (ls_zod_offset ls b s u) g b s u
        (mask b s u) (lsps b s u) d).
Proof. intros R. unfold gen_rays. rewrite (rd_ls _ _ _ _ _ _ _ _ R), (rd_los _ _ _ _ _ _ _ _ R), (rd_geo _ _ _ _ _ _ _ _ R), (rd_in _ _ _ _ _ _ _ _ R), (rd_bs _ _ _ _ _ _ _ _ R). reflexivity. Qed.

(* C21 *)
Lemma C21_l sc st a dr st' : constructed sc -> set_topology sc st a dr = (st', Ok true) ->
  exists los ind mask, s_los st' = Some los /\ s_in st' = Some ind /\ compute_clusters_mask st' = Ok mask /\
    forall b s u,
      (t_at ind b u = false -> exists n,
         documented_value (sc_env sc) (sc_fc sc) (sc_dir sc) (sc_elev sc) (los b s u) "numClusters" (Fin (INR n)) /\
         (2 <= n <= 4)%nat /\ forall c, mask b s u c = if Nat.ltb c n then 0 else 1) /\
      (t_at ind b u = true -> forall c, mask b s u c = 1).
Proof.
  intros Hc H. destruct (make_ready _ _ _ _ _ Hc H) as (ls & los & g & ind & bs & mask & R).
  exists los, ind, mask. split; [apply R|]. split; [apply R|]. split; [apply R|].
  intros b s u. split; intros Hi.
  - exists (n_clusters ls (los b s u)). destruct (rd_nc _ _ _ _ _ _ _ _ R (los b s u)) as [N D].
    split; [exact D|]. split; [exact N|]. intros c. rewrite (rd_maskv _ _ _ _ _ _ _ _ R), Hi, mask_outdoor.
    destruct (los b s u); reflexivity.
  - intros c. rewrite (rd_maskv _ _ _ _ _ _ _ _ R), Hi, (rd_excl _ _ _ _ _ _ _ _ R b s u Hi). apply mask_indoor.
Qed.


Lemma unscaled_perm n m rtau ds mask x : (forall c, mask c = if Nat.ltb c m then 0 else 1) -> (1 <= n)%nat ->
  let un := unscaled_delays n rtau ds mask x in
  length un = n /\ StronglySorted Rle un /\ nth 0 un 0 = 0 /\ (forall t, In t un -> 0 <= t) /\
  exists t0, Permutation (map (fun t => t + t0) un) (map (raw_delay m rtau ds x) (seq 0 n)).
Proof.
  intros HM Hn. cbv zeta. unfold unscaled_delays.
  set (raw := map (fun c => - rtau * ds * ln (x c) * (1 - mask c) + mask c) (seq 0 n)).
  assert (NE : raw <> []) by (unfold raw; destruct n; [lia | discriminate]).
  assert (L : length raw = n) by (unfold raw; rewrite map_length; apply seq_length).
  destruct (sorted_from_zero raw NE) as (A & B & C & D). rewrite L in A.
  split; [exact A|]. split; [exact B|]. split; [exact C|]. split; [exact D|].
  exists (reduce_min raw).
  apply Permutation_trans with (map (fun t => t + reduce_min raw) (map (fun t => t - reduce_min raw) raw)).
  - apply Permutation_map, rsort_perm.
  - rewrite map_map. rewrite (map_ext _ (fun t => t)) by (intros; ring). rewrite map_id.
    unfold raw. rewrite (map_ext (fun c => - rtau * ds * ln (x c) * (1 - mask c) + mask c) (raw_delay m rtau ds x)); [apply Permutation_refl|].
    intros c. unfold raw_delay. rewrite HM. destruct (Nat.ltb c m); ring.
Qed.

(* an indoor link never has usable powers *)
Lemma link_rays_indoor sc st ls los g ind bs mask srt lsps d rr b s u : ready sc st ls los g ind bs mask ->
  gen_rays srt st mask lsps d = Ok rr -> t_at ind b u = true -> rr b s u = None.
Proof.
  intros R H Hi. rewrite (gen_ready _ _ _ _ _ _ _ _ srt lsps d R) in H. injection H as <-.
  unfold link_rays. rewrite cluster_powers_all_masked; [reflexivity|].
  intros c. rewrite (rd_maskv _ _ _ _ _ _ _ _ R), Hi, (rd_excl _ _ _ _ _ _ _ _ R b s u Hi). apply mask_indoor.
Qed.

Lemma link_rays_outdoor sc st ls los g ind bs mask srt lsps d rr b s u : ready sc st ls los g ind bs mask ->
  gen_rays srt st mask lsps d = Ok rr -> t_at ind b u = false ->
  let lp := ls_col ls (los b s u) in
  let un := unscaled_delays (num_clusters_max ls) (lp_rTau lp) (l_ds (lsps b s u)) (mask b s u) (rd_x d b s u) in
  exists r, rr b s u = Some r /\
    r_delays r = cluster_delays (los b s u) (l_k (lsps b s u)) un /\
    cluster_powers (num_clusters_max ls) (lp_rTau lp) (l_ds (lsps b s u)) (lp_zeta lp) (mask b s u) (rd_shadow d b s u) un = Some (r_powers r) /\
    (forall c, mask b s u c = if Nat.ltb c (n_clusters ls (los b s u)) then 0 else 1) /\
    (1 <= n_clusters ls (los b s u) <= num_clusters_max ls)%nat.
Proof.
  intros R H Hi lp un. rewrite (gen_ready _ _ _ _ _ _ _ _ srt lsps d R) in H. injection H as <-.
  assert (HM : forall c, mask b s u c = if Nat.ltb c (n_clusters ls (los b s u)) then 0 else 1).
  { intros c. rewrite (rd_maskv _ _ _ _ _ _ _ _ R), Hi, mask_outdoor. destruct (los b s u); reflexivity. }
  assert (HN : (1 <= n_clusters ls (los b s u) <= num_clusters_max ls)%nat).
  { assert (N := rd_nc _ _ _ _ _ _ _ _ R (los b s u)). unfold num_clusters_max. destruct (los b s u); lia. }
  destruct (cluster_powers_outdoor _ _ (lp_rTau lp) (l_ds (lsps b s u)) (lp_zeta lp) (mask b s u) (rd_shadow d b s u) un HN HM)
    as (p & P & _).
  unfold link_rays. fold lp. fold un. rewrite P. eexists. split; [reflexivity|]. cbn [r_delays r_powers].
  split; [reflexivity|]. split; [reflexivity|]. split; [exact HM | exact HN].
Qed.


Lemma los_scale_eq k : delay_scaling k = los_scale k.
Proof. unfold delay_scaling, los_scale, log10, sq. ring. Qed.

(* C22 *)
Lemma C22_l sc st a dr st' mask srt lsps d rr : constructed sc -> set_topology sc st a dr = (st', Ok true) ->
  compute_clusters_mask st' = Ok mask -> gen_rays srt st' mask lsps d = Ok rr ->
  exists los n1 n2, s_los st' = Some los /\
    (forall l, documented_value (sc_env sc) (sc_fc sc) (sc_dir sc) (sc_elev sc) l "numClusters"
                 (Fin (INR (if l then n1 else n2)))) /\
    forall b s u r, rr b s u = Some r ->
      (los b s u = true -> Rpower 10 (- 6.3) <= l_k (lsps b s u)) ->
      length (r_delays r) = Nat.max n1 n2 /\ StronglySorted Rle (r_delays r) /\ nth 0 (r_delays r) 0 = 0 /\
      (forall t, In t (r_delays r) -> 0 <= t) /\
      exists rtau t0,
        documented_value (sc_env sc) (sc_fc sc) (sc_dir sc) (sc_elev sc) (los b s u) "rTau" (Fin rtau) /\
        let scale := if los b s u then los_scale (l_k (lsps b s u)) else 1 in
        0 < scale /\
        Permutation (map (fun t => scale * t + t0) (r_delays r))
          (map (raw_delay (if los b s u then n1 else n2) rtau (l_ds (lsps b s u)) (rd_x d b s u))
               (seq 0 (Nat.max n1 n2))).
Proof.
  intros Hc H HM HG. destruct (make_ready _ _ _ _ _ Hc H) as (ls & los & g & ind & bs & mask' & R).
  assert (mask' = mask) by (assert (E := rd_mask _ _ _ _ _ _ _ _ R); congruence). subst mask'.
  exists los, (n_clusters ls true), (n_clusters ls false). split; [apply R|].
  split; [intros l; destruct (rd_nc _ _ _ _ _ _ _ _ R l) as [_ D]; destruct l; exact D|].
  intros b s u r Hr HK.
  destruct (t_at ind b u) eqn:Hi.
  { rewrite (link_rays_indoor _ _ _ _ _ _ _ _ _ _ _ _ b s u R HG Hi) in Hr. discriminate. }
  destruct (link_rays_outdoor _ _ _ _ _ _ _ _ _ _ _ _ b s u R HG Hi) as (r' & Hr' & D & _ & M & N).
  assert (r' = r) by congruence. subst r'.
  set (lp := ls_col ls (los b s u)) in *.
  set (un := unscaled_delays (num_clusters_max ls) (lp_rTau lp) (l_ds (lsps b s u)) (mask b s u) (rd_x d b s u)) in *.
  destruct (unscaled_perm (num_clusters_max ls) _ (lp_rTau lp) (l_ds (lsps b s u)) _ (rd_x d b s u) M ltac:(lia))
    as (L & S & Z & NN & t0 & P). fold un in L, S, Z, NN, P.
  assert (DR : documented_value (sc_env sc) (sc_fc sc) (sc_dir sc) (sc_elev sc) (los b s u) "rTau" (Fin (lp_rTau lp))).
  { destruct (rd_col _ _ _ _ _ _ _ _ R (los b s u)) as [DC _]. unfold documented_column in DC. tauto. }
  rewrite D. unfold cluster_delays. change (Nat.max (n_clusters ls true) (n_clusters ls false)) with (num_clusters_max ls).
  destruct (los b s u) eqn:EL.
  - assert (SP := delay_scaling_pos _ (HK eq_refl)).
    split; [rewrite map_length; exact L|]. split; [apply SS_map_div; assumption|].
    split; [rewrite nth_map_div, Z; unfold Rdiv; ring|].
    split.
    + intros t Ht. apply in_map_iff in Ht. destruct Ht as (y & <- & Hy).
      apply Rmult_le_pos; [apply NN, Hy | left; apply Rinv_0_lt_compat, SP].
    + exists (lp_rTau lp), t0. split; [exact DR|]. cbv zeta. rewrite <- los_scale_eq. split; [exact SP|].
      rewrite map_map. rewrite (map_ext _ (fun t => t + t0)); [exact P|]. intros t. field. lra.
  - split; [exact L|]. split; [exact S|]. split; [exact Z|]. split; [exact NN|].
    exists (lp_rTau lp), t0. split; [exact DR|]. cbv zeta. split; [lra|].
    rewrite (map_ext _ (fun t => t + t0)); [exact P|]. intros t. ring.
Qed.

(* C23 *)
Lemma C23_l sc st a dr st' mask srt lsps d rr : constructed sc -> set_topology sc st a dr = (st', Ok true) ->
  compute_clusters_mask st' = Ok mask -> gen_rays srt st' mask lsps d = Ok rr ->
  exists los ind n1 n2, s_los st' = Some los /\ s_in st' = Some ind /\
    (forall l, documented_value (sc_env sc) (sc_fc sc) (sc_dir sc) (sc_elev sc) l "numClusters"
                 (Fin (INR (if l then n1 else n2)))) /\
    forall b s u, t_at ind b u = false ->
      (los b s u = true -> Rpower 10 (- 6.3) <= l_k (lsps b s u)) ->
      exists r, rr b s u = Some r /\
      length (r_powers r) = Nat.max n1 n2 /\ Rsum (r_powers r) = 1 /\
      let n := if los b s u then n1 else n2 in
      (forall c, (c < n)%nat -> 0 < nth c (r_powers r) 0 <= 1) /\
      (forall c, (n <= c)%nat -> nth c (r_powers r) 0 = 0) /\
      exists rtau zeta total,
        documented_value (sc_env sc) (sc_fc sc) (sc_dir sc) (sc_elev sc) (los b s u) "rTau" (Fin rtau) /\
        documented_value (sc_env sc) (sc_fc sc) (sc_dir sc) (sc_elev sc) (los b s u) "zeta" (Fin zeta) /\
        let scale := if los b s u then los_scale (l_k (lsps b s u)) else 1 in
        0 < total /\
        forall c, (c < n)%nat -> nth c (r_powers r) 0 * total =
          exp (- (scale * nth c (r_delays r) 0) * (rtau - 1) / (rtau * l_ds (lsps b s u)))
          * Rpower 10 (- (zeta * rd_shadow d b s u c) / 10).
Proof.
  intros Hc H HM HG. destruct (make_ready _ _ _ _ _ Hc H) as (ls & los & g & ind & bs & mask' & R).
  assert (mask' = mask) by (assert (E := rd_mask _ _ _ _ _ _ _ _ R); congruence). subst mask'.
  exists los, ind, (n_clusters ls true), (n_clusters ls false). split; [apply R|]. split; [apply R|].
  split; [intros l; destruct (rd_nc _ _ _ _ _ _ _ _ R l) as [_ D]; destruct l; exact D|].
  intros b s u Hi HK.
  destruct (link_rays_outdoor _ _ _ _ _ _ _ _ _ _ _ _ b s u R HG Hi) as (r & Hr & D & P & M & N).
  exists r. split; [exact Hr|].
  set (lp := ls_col ls (los b s u)) in *.
  set (un := unscaled_delays (num_clusters_max ls) (lp_rTau lp) (l_ds (lsps b s u)) (mask b s u) (rd_x d b s u)) in *.
  destruct (cluster_powers_outdoor _ _ (lp_rTau lp) (l_ds (lsps b s u)) (lp_zeta lp) (mask b s u) (rd_shadow d b s u) un N M)
    as (p & P' & L & SM & A & B & Q).
  assert (p = r_powers r) by congruence. subst p.
  change (Nat.max (n_clusters ls true) (n_clusters ls false)) with (num_clusters_max ls).
  assert (EN : (if los b s u then n_clusters ls true else n_clusters ls false) = n_clusters ls (los b s u)) by (destruct (los b s u); reflexivity).
  cbv zeta. rewrite !EN.
  split; [exact L|]. split; [exact SM|]. split; [exact A|]. split; [exact B|].
  destruct (rd_col _ _ _ _ _ _ _ _ R (los b s u)) as [DC _]. unfold documented_column in DC.
  exists (lp_rTau lp), (lp_zeta lp), (power_unnormalized (lp_rTau lp) (l_ds (lsps b s u)) (lp_zeta lp) (mask b s u) (rd_shadow d b s u) un 0%nat / nth 0 (r_powers r) 0).
  split; [tauto|]. split; [tauto|].
  assert (PU : 0 < power_unnormalized (lp_rTau lp) (l_ds (lsps b s u)) (lp_zeta lp) (mask b s u) (rd_shadow d b s u) un 0%nat).
  { apply power_unnorm_sign. rewrite M. destruct (Nat.ltb_spec 0 (n_clusters ls (los b s u))); [reflexivity | lia]. }
  destruct (A 0%nat ltac:(lia)) as [A0 _].
  split; [apply Rdiv_lt_0_compat; assumption|].
  intros c Hcc. assert (Qc := Q c 0%nat Hcc ltac:(lia)).
  replace (nth c (r_powers r) 0 * (power_unnormalized (lp_rTau lp) (l_ds (lsps b s u)) (lp_zeta lp) (mask b s u) (rd_shadow d b s u) un 0%nat / nth 0 (r_powers r) 0))
    with (nth c (r_powers r) 0 / nth 0 (r_powers r) 0 * power_unnormalized (lp_rTau lp) (l_ds (lsps b s u)) (lp_zeta lp) (mask b s u) (rd_shadow d b s u) un 0%nat)
    by (field; lra).
  rewrite Qc. replace (power_unnormalized (lp_rTau lp) (l_ds (lsps b s u)) (lp_zeta lp) (mask b s u) (rd_shadow d b s u) un c / power_unnormalized (lp_rTau lp) (l_ds (lsps b s u)) (lp_zeta lp) (mask b s u) (rd_shadow d b s u) un 0%nat * power_unnormalized (lp_rTau lp) (l_ds (lsps b s u)) (lp_zeta lp) (mask b s u) (rd_shadow d b s u) un 0%nat)
    with (power_unnormalized (lp_rTau lp) (l_ds (lsps b s u)) (lp_zeta lp) (mask b s u) (rd_shadow d b s u) un c) by (field; lra).
  unfold power_unnormalized at 1. rewrite M. destruct (Nat.ltb_spec c (n_clusters ls (los b s u))) as [_ | X]; [| lia].
  rewrite Rminus_0_r, Rmult_1_r. unfold pow10. f_equal. f_equal. f_equal. f_equal. f_equal.
  rewrite D. unfold cluster_delays. destruct (los b s u); [| ring].
  rewrite <- los_scale_eq. assert (SP := delay_scaling_pos _ (HK eq_refl)).
  rewrite nth_map_div. field. lra.
Qed.

(* ---- angles ---- *)
Lemma angle_powers_rel los k p n : 0 < k \/ los = false -> p <> [] -> length p = n ->
  relative_powers n (angle_power los k p) (rel_power (powers_for_angles los k p)).
Proof.
  intros Hk Hp Hn. set (q := powers_for_angles los k p).
  assert (E : forall c, nth c q 0 = angle_power los k p c).
  { intros c. unfold q, angle_power. destruct los; [| reflexivity].
    destruct Hk as [Hk | Hk]; [| discriminate]. destruct (powers_for_angles_spec true k p Hk Hp) as (_ & _ & Q). apply Q. }
  assert (L : length q = n).
  { unfold q, powers_for_angles. destruct los; [| exact Hn]. destruct p; [congruence|]. cbn [length] in *. rewrite map_length. exact Hn. }
  assert (NE : q <> []) by (destruct q; [destruct p; cbn in *; [congruence | subst n; discriminate] | discriminate]).
  destruct (reduce_max_spec q NE) as [M1 M2].
  exists (reduce_max q). split; [| split].
  - intros c Hc. rewrite <- E. apply M2, nth_In. lia.
  - destruct (In_nth q _ 0 M1) as (c & Hc & Ec). exists c. split; [lia|]. rewrite <- E. exact Ec.
  - intros c Hc. unfold rel_power. rewrite <- E. reflexivity.
Qed.

Lemma c_phi_eq los k x : c_phi los k x = x * cphi_factor los k.
Proof. unfold c_phi, cphi_factor, log10, sq. destruct los; ring. Qed.
Lemma c_theta_eq los k x : c_theta los k x = x * ctheta_factor los k.
Proof. unfold c_theta, ctheta_factor, log10, sq. destruct los; ring. Qed.

Lemma azimuth_center_eq los spread cphi la p sign z c :
  azimuth_center los spread cphi la p sign z c =
  la + azimuth_deviation spread cphi (rel_power p c) (sign c) (z c)
  - (if los then azimuth_deviation spread cphi (rel_power p 0) (sign 0%nat) (z 0%nat) else 0).
Proof.
  unfold azimuth_center, azimuth_deviation, azimuth_prime, sgn, b2r. cbv zeta.
  destruct los, (sign c), (sign 0%nat); unfold Rdiv; ring.
Qed.

(* the ray angles of one link, in degrees, before coupling *)
Lemma rad_range a : -180 < a <= 180 -> - PI < deg_2_rad a <= PI.
Proof.
  unfold deg_2_rad. assert (P := PI_RGT_0). intros H.
  assert (A : -180 * (PI / 180) < a * (PI / 180)) by (apply Rmult_lt_compat_r; lra).
  assert (B : a * (PI / 180) <= 180 * (PI / 180)) by (apply Rmult_le_compat_r; lra).
  replace (-180 * (PI / 180)) with (- PI) in A by field. replace (180 * (PI / 180)) with PI in B by field. lra.
Qed.

Lemma rad_range0 a : 0 <= a <= 180 -> 0 <= deg_2_rad a <= PI.
Proof.
  unfold deg_2_rad. assert (P := PI_RGT_0). intros H.
  assert (B : a * (PI / 180) <= 180 * (PI / 180)) by (apply Rmult_le_compat_r; lra).
  replace (180 * (PI / 180)) with PI in B by field. split; [apply Rmult_le_pos; lra | exact B].
Qed.

(* explicit form of the angles of an outdoor link *)
Lemma link_angles sc st ls los g ind bs mask srt lsps d rr b s u r : ready sc st ls los g ind bs mask ->
  gen_rays srt st mask lsps d = Ok rr -> rr b s u = Some r ->
  let lp := ls_col ls (los b s u) in
  let k := l_k (lsps b s u) in
  let pa := powers_for_angles (los b s u) k (r_powers r) in
  let cphi := lp_CPhi lp * cphi_factor (los b s u) k in
  let cth := lp_CTheta lp * ctheta_factor (los b s u) k in
  let asd := if satellite_height bs then 0 else l_asd (lsps b s u) in
  let zsd := if satellite_height bs then 0 else l_zsd (lsps b s u) in
  length (r_powers r) = num_clusters_max ls /\ t_at ind b u = false /\
  (forall c q, r_aoa r c q = deg_2_rad (azimuth_angle (los b s u) (l_asa (lsps b s u)) (lp_cASA lp) cphi (g_aoa g b s u) pa
       (ad_sign (rd_aoa d) b s) (ad_comp (rd_aoa d) b s u) c (mixing srt (ad_mix (rd_aoa d) b s c) q))) /\
  (forall c q, r_aod r c q = deg_2_rad (azimuth_angle (los b s u) asd (lp_cASD lp) cphi (g_aod g b s u) pa
       (ad_sign (rd_aod d) b s) (ad_comp (rd_aod d) b s u) c (mixing srt (ad_mix (rd_aod d) b s c) q))) /\
  (forall c q, r_zoa r c q = deg_2_rad (zenith_angle ZOA (los b s u) false (l_zsa (lsps b s u)) (lp_cZSA lp) cth (g_zoa g b s u)
       (ls_zod_offset ls b s u) pa
       (ad_sign (rd_zoa d) b s) (ad_comp (rd_zoa d) b s u) c (mixing srt (ad_mix (rd_zoa d) b s c) q))) /\
  (forall c q, r_zod r c q = deg_2_rad (zenith_angle ZOD (los b s u) false zsd (3 / 8 * ext_pow10 (zsd_floor (lp_muZSD lp))) cth (g_zod g b s u)
       (ls_zod_offset ls b s u) pa
       (ad_sign (rd_zod d) b s) (ad_comp (rd_zod d) b s u) c (mixing srt (ad_mix (rd_zod d) b s c) q))) /\
  (forall c q, r_xpr r c q = pow10 ((lp_muXPR lp + lp_sigmaXPR lp * rd_xpr d b s u c q) / 10)).
Proof.
  intros R HG Hr. cbv zeta.
  destruct (t_at ind b u) eqn:Hi.
  { rewrite (link_rays_indoor _ _ _ _ _ _ _ _ _ _ _ _ b s u R HG Hi) in Hr. discriminate. }
  destruct (link_rays_outdoor _ _ _ _ _ _ _ _ _ _ _ _ b s u R HG Hi) as (r' & Hr' & _ & P & M & N).
  assert (r' = r) by congruence. subst r'.
  destruct (cluster_powers_outdoor _ _ (lp_rTau (ls_col ls (los b s u))) (l_ds (lsps b s u)) (lp_zeta (ls_col ls (los b s u))) (mask b s u) (rd_shadow d b s u) (unscaled_delays (num_clusters_max ls) (lp_rTau (ls_col ls (los b s u))) (l_ds (lsps b s u)) (mask b s u) (rd_x d b s u)) N M)
    as (p & P' & L & _).
  assert (p = r_powers r) by congruence. subst p.
  split; [exact L|]. split; [reflexivity|].
  rewrite (gen_ready _ _ _ _ _ _ _ _ srt lsps d R) in HG. injection HG as <-.
  unfold link_rays in Hr. rewrite P, Hi in Hr. rewrite (rd_mean _ _ _ _ _ _ _ _ R) in Hr.
  rewrite c_phi_eq, c_theta_eq in Hr. cbn [negb] in Hr. rewrite andb_true_r in Hr.
  assert (A : forall A (x y : A), Some x = Some y -> x = y) by (intros A x y E; injection E; auto).
  apply A in Hr. rewrite <- Hr. cbn [r_aoa r_aod r_zoa r_zod r_xpr r_powers].
  repeat split; intros c q; reflexivity.
Qed.

Lemma C24_l sc st a dr st' mask srt lsps d rr : constructed sc -> set_topology sc st a dr = (st', Ok true) ->
  compute_clusters_mask st' = Ok mask -> valid_argsort srt -> gen_rays srt st' mask lsps d = Ok rr ->
  exists los g bs, s_los st' = Some los /\ s_geo st' = Some g /\ s_bs_loc st' = Some bs /\
    forall b s u r, rr b s u = Some r -> (los b s u = true -> 0 < l_k (lsps b s u)) ->
    let x := lsps b s u in
    let doc := documented_value (sc_env sc) (sc_fc sc) (sc_dir sc) (sc_elev sc) (los b s u) in
    let n := length (r_powers r) in
    exists casa casd cphi zr,
      doc "cASA" (Fin casa) /\ doc "cASD" (Fin casd) /\ doc "CPhiNLoS" (Fin cphi) /\
      relative_powers n (angle_power (los b s u) (l_k x) (r_powers r)) zr /\
      let asd := if Rle_dec 160000 (vz (t_at bs 0%nat 0%nat)) then 0 else l_asd x in
      let C := cphi * cphi_factor (los b s u) (l_k x) in
      let arr c := azimuth_deviation (l_asa x) C (zr c) (ad_sign (rd_aoa d) b s c) (ad_comp (rd_aoa d) b s u c) in
      let dep c := azimuth_deviation asd C (zr c) (ad_sign (rd_aod d) b s c) (ad_comp (rd_aod d) b s u c) in
      forall c, exists pa pd, rearrangement 20 pa /\ rearrangement 20 pd /\
        forall q, (q < 20)%nat ->
          - PI < r_aoa r c q <= PI /\ - PI < r_aod r c q <= PI /\
          same_angle (degrees (r_aoa r c q))
            (g_aoa g b s u + arr c - (if los b s u then arr 0%nat else 0) + casa * nth (pa q) ray_offsets 0) /\
          same_angle (degrees (r_aod r c q))
            (g_aod g b s u + dep c - (if los b s u then dep 0%nat else 0) + casd * nth (pd q) ray_offsets 0) /\
          (los b s u = true -> c = 0%nat ->
             same_angle (degrees (r_aoa r c q)) (g_aoa g b s u + casa * nth (pa q) ray_offsets 0) /\
             same_angle (degrees (r_aod r c q)) (g_aod g b s u + casd * nth (pd q) ray_offsets 0)) /\
          (160000 <= vz (t_at bs 0%nat 0%nat) ->
             same_angle (degrees (r_aod r c q)) (g_aod g b s u + casd * nth (pd q) ray_offsets 0)).
Proof.
  intros Hc H HM HS HG. destruct (make_ready _ _ _ _ _ Hc H) as (ls & los & g & ind & bs & mask' & R).
  assert (mask' = mask) by (assert (E := rd_mask _ _ _ _ _ _ _ _ R); congruence). subst mask'.
  exists los, g, bs. split; [apply R|]. split; [apply R|]. split; [apply R|].
  intros b s u r Hr Hk x doc n.
  destruct (link_angles _ _ _ _ _ _ _ _ _ _ _ _ b s u r R HG Hr) as (L & _ & AOA & AOD & _).
  destruct (rd_col _ _ _ _ _ _ _ _ R (los b s u)) as [DC _]. unfold documented_column in DC.
  set (lp := ls_col ls (los b s u)) in *. fold x in AOA, AOD, Hk |- *.
  exists (lp_cASA lp), (lp_cASD lp), (lp_CPhi lp), (rel_power (powers_for_angles (los b s u) (l_k x) (r_powers r))).
  split; [unfold doc; tauto|]. split; [unfold doc; tauto|]. split; [unfold doc; tauto|].
  assert (N2 := rd_nc _ _ _ _ _ _ _ _ R true).
  assert (NE : r_powers r <> []).
  { intros E. rewrite E in L. cbn in L. unfold num_clusters_max in L. lia. }
  split. { apply angle_powers_rel; [destruct (los b s u); [left; apply Hk; reflexivity | right; reflexivity] | exact NE | reflexivity]. }
  intros asd C arr dep c.
  assert (ASD : (if satellite_height bs then 0 else l_asd x) = asd).
  { unfold satellite_height, asd, Rleb. destruct (Rle_dec 160000 (vz (t_at bs 0%nat 0%nat))); reflexivity. }
  rewrite ASD in AOD.
  exists (mixing srt (ad_mix (rd_aoa d) b s c)), (mixing srt (ad_mix (rd_aod d) b s c)).
  split; [apply mixing_rearr, HS|]. split; [apply mixing_rearr, HS|].
  intros q Hq. rewrite AOA, AOD. unfold azimuth_angle. rewrite !azimuth_center_eq, !degrees_deg_2_rad.
  fold C. fold (arr c). fold (arr 0%nat). fold (dep c). fold (dep 0%nat).
  fold (offset (mixing srt (ad_mix (rd_aoa d) b s c) q)). fold (offset (mixing srt (ad_mix (rd_aod d) b s c) q)).
  split; [apply rad_range, wrap_180_range|]. split; [apply rad_range, wrap_180_range|].
  split; [apply wrap_180_same|]. split; [apply wrap_180_same|]. split.
  - intros -> ->. split.
    + replace (g_aoa g b s u + arr 0%nat - arr 0%nat) with (g_aoa g b s u) by ring. apply wrap_180_same.
    + replace (g_aod g b s u + dep 0%nat - dep 0%nat) with (g_aod g b s u) by ring. apply wrap_180_same.
  - intros Hh. assert (Z : asd = 0) by (unfold asd; destruct (Rle_dec 160000 (vz (t_at bs 0%nat 0%nat))); [reflexivity | lra]).
    assert (DZ : forall c', dep c' = 0).
    { intros c'. unfold dep, azimuth_deviation. rewrite Z. unfold Rdiv. destruct (ad_sign _ _ _ _); ring. }
    rewrite !DZ. replace (g_aod g b s u + 0 - (if los b s u then 0 else 0)) with (g_aod g b s u) by (destruct (los b s u); ring).
    apply wrap_180_same.
Qed.

Lemma zenith_center_eq ty (los : bool) spread cth la zo p sign z c :
  zenith_center ty los false spread cth la zo p sign z c =
  la + zenith_deviation spread cth (rel_power p c) (sign c) (z c)
  + (if los then - zenith_deviation spread cth (rel_power p 0) (sign 0%nat) (z 0%nat)
     else match ty with ZOD => zo | ZOA => 0 end).
Proof.
  unfold zenith_center, zenith_deviation, zenith_prime, sgn, b2r. cbv zeta.
  destruct los, ty, (sign c), (sign 0%nat); cbn [negb andb]; unfold Rdiv; ring.
Qed.

Lemma C25_l sc st a dr st' mask srt lsps d rr : constructed sc -> set_topology sc st a dr = (st', Ok true) ->
  compute_clusters_mask st' = Ok mask -> valid_argsort srt -> gen_rays srt st' mask lsps d = Ok rr ->
  exists los g ut bs, s_los st' = Some los /\ s_geo st' = Some g /\ s_ut_loc st' = Some ut /\ s_bs_loc st' = Some bs /\
    forall b s u r, rr b s u = Some r -> (los b s u = true -> 0 < l_k (lsps b s u)) ->
    let x := lsps b s u in
    let doc := documented_value (sc_env sc) (sc_fc sc) (sc_dir sc) (sc_elev sc) (los b s u) in
    let n := length (r_powers r) in
    exists czsa czsd mzsd cth zr,
      doc "cZSA" (Fin czsa) /\ doc "muZSD" mzsd /\ doc "CThetaNLoS" (Fin cth) /\
      (mzsd = NegInf -> czsd = 0) /\ (forall m, mzsd = Fin m -> czsd = 3 / 8 * Rpower 10 (Rmax (-100) m)) /\
      relative_powers n (angle_power (los b s u) (l_k x) (r_powers r)) zr /\
      let zsd := if Rle_dec 160000 (vz (t_at bs 0%nat 0%nat)) then 0 else l_zsd x in
      let C := cth * ctheta_factor (los b s u) (l_k x) in
      let arr c := zenith_deviation (l_zsa x) C (zr c) (ad_sign (rd_zoa d) b s c) (ad_comp (rd_zoa d) b s u c) in
      let dep c := zenith_deviation zsd C (zr c) (ad_sign (rd_zod d) b s c) (ad_comp (rd_zod d) b s u c) in
      let shift := atan ((35 - 3.5) / plane_distance (t_at ut b u) (t_at bs b s))
                   - atan ((35 - 1.5) / plane_distance (t_at ut b u) (t_at bs b s)) in
      forall c, exists pa pd, rearrangement 20 pa /\ rearrangement 20 pd /\
        forall q, (q < 20)%nat ->
          0 <= r_zoa r c q <= PI /\ 0 <= r_zod r c q <= PI /\
          same_cone (degrees (r_zoa r c q))
            (g_zoa g b s u + arr c + (if los b s u then - arr 0%nat else 0) + czsa * nth (pa q) ray_offsets 0) /\
          same_cone (degrees (r_zod r c q))
            (g_zod g b s u + dep c + (if los b s u then - dep 0%nat else shift) + czsd * nth (pd q) ray_offsets 0) /\
          (los b s u = true -> c = 0%nat ->
             cos (r_zoa r c q) = cos ((g_zoa g b s u + czsa * nth (pa q) ray_offsets 0) * (PI / 180)) /\
             cos (r_zod r c q) = cos ((g_zod g b s u + czsd * nth (pd q) ray_offsets 0) * (PI / 180))).
Proof.
  intros Hc H HM HS HG. destruct (make_ready _ _ _ _ _ Hc H) as (ls & los & g & ind & bs & mask' & R).
  assert (mask' = mask) by (assert (E := rd_mask _ _ _ _ _ _ _ _ R); congruence). subst mask'.
  destruct (rd_zoff _ _ _ _ _ _ _ _ R) as (ut & UT & ZO).
  exists los, g, ut, bs. split; [apply R|]. split; [apply R|]. split; [exact UT|]. split; [apply R|].
  intros b s u r Hr Hk x doc n.
  destruct (link_angles _ _ _ _ _ _ _ _ _ _ _ _ b s u r R HG Hr) as (L & _ & _ & _ & ZOA' & ZOD' & _).
  destruct (rd_col _ _ _ _ _ _ _ _ R (los b s u)) as [DC _]. unfold documented_column in DC.
  set (lp := ls_col ls (los b s u)) in *. fold x in ZOA', ZOD', Hk |- *.
  exists (lp_cZSA lp), (3 / 8 * ext_pow10 (zsd_floor (lp_muZSD lp))), (lp_muZSD lp), (lp_CTheta lp),
    (rel_power (powers_for_angles (los b s u) (l_k x) (r_powers r))).
  split; [unfold doc; tauto|]. split; [unfold doc; tauto|]. split; [unfold doc; tauto|].
  split; [intros E; rewrite E; cbn [zsd_floor ext_pow10]; ring|].
  split; [intros m E; rewrite E; reflexivity|].
  assert (N2 := rd_nc _ _ _ _ _ _ _ _ R true).
  assert (NE : r_powers r <> []).
  { intros E. rewrite E in L. cbn in L. unfold num_clusters_max in L. lia. }
  split. { apply angle_powers_rel; [destruct (los b s u); [left; apply Hk; reflexivity | right; reflexivity] | exact NE | reflexivity]. }
  intros zsd C arr dep shift c.
  assert (ZSD : (if satellite_height bs then 0 else l_zsd x) = zsd).
  { unfold satellite_height, zsd, Rleb. destruct (Rle_dec 160000 (vz (t_at bs 0%nat 0%nat))); reflexivity. }
  rewrite ZSD in ZOD'.
  exists (mixing srt (ad_mix (rd_zoa d) b s c)), (mixing srt (ad_mix (rd_zod d) b s c)).
  split; [apply mixing_rearr, HS|]. split; [apply mixing_rearr, HS|].
  intros q Hq.
  assert (SH : (if los b s u then - dep 0%nat else ls_zod_offset ls b s u) = (if los b s u then - dep 0%nat else shift)).
  { rewrite ZO. destruct (los b s u); [reflexivity|]. unfold zod_offset_of, shift. replace (dist_2d (t_at ut b u) (t_at bs b s)) with (plane_distance (t_at ut b u) (t_at bs b s)); [reflexivity|].
    unfold plane_distance, dist_2d, sq. f_equal. ring. }
  assert (A1 : same_cone (degrees (r_zoa r c q))
            (g_zoa g b s u + arr c + (if los b s u then - arr 0%nat else 0) + lp_cZSA lp * nth (mixing srt (ad_mix (rd_zoa d) b s c) q) ray_offsets 0)).
  { rewrite ZOA', degrees_deg_2_rad. unfold zenith_angle. rewrite zenith_center_eq. fold C. fold (arr c). fold (arr 0%nat).
    apply fold_180_cone. }
  assert (A2 : same_cone (degrees (r_zod r c q))
            (g_zod g b s u + dep c + (if los b s u then - dep 0%nat else shift) + 3 / 8 * ext_pow10 (zsd_floor (lp_muZSD lp)) * nth (mixing srt (ad_mix (rd_zod d) b s c) q) ray_offsets 0)).
  { rewrite ZOD', degrees_deg_2_rad. unfold zenith_angle. rewrite zenith_center_eq. fold C. fold (dep c). fold (dep 0%nat).
    rewrite SH. apply fold_180_cone. }
  assert (PI0 := PI_RGT_0).
  assert (BACK : forall y, degrees y * (PI / 180) = y) by (intros y; unfold degrees; field; lra).
  split; [rewrite ZOA'; apply rad_range0, fold_180_range|]. split; [rewrite ZOD'; apply rad_range0, fold_180_range|].
  split; [exact A1|]. split; [exact A2|].
  intros El ->. apply cone_cos in A1, A2. rewrite BACK in A1, A2. rewrite El in A1, A2.
  replace (g_zoa g b s u + arr 0%nat + - arr 0%nat) with (g_zoa g b s u) in A1 by ring.
  replace (g_zod g b s u + dep 0%nat + - dep 0%nat) with (g_zod g b s u) in A2 by ring.
  split; assumption.
Qed.

(* C26 *)
Lemma offsets_value i : (i < 10)%nat -> i <> 7%nat ->
  nth (2 * i) ray_offsets 0 = nth i table_7_5_3 0 /\ nth (2 * i + 1) ray_offsets 0 = - nth i table_7_5_3 0.
Proof.
  intros H N. do 10 (destruct i as [| i]; [try lia; unfold ray_offsets, table_7_5_3; cbn [nth Nat.mul Nat.add]; split; lra|]). lia.
Qed.
Lemma offsets_bad : nth 14 ray_offsets 0 = nth 7 table_7_5_3 0 /\
  nth 15 ray_offsets 0 <> - nth 7 table_7_5_3 0 /\ ~ In (- nth 14 ray_offsets 0) ray_offsets /\ Rsum ray_offsets = 1.
Proof.
  unfold ray_offsets, table_7_5_3, Rsum. cbn [nth fold_right].
  split; [reflexivity|]. split; [lra|]. split; [| lra].
  cbn [In]. intros H. repeat (destruct H as [H | H]; [lra|]). exact H.
Qed.

(* the mean direction of the rays of a cluster is biased by cAS/20 (before wrapping) *)
Lemma Rsum_map_affine (l : list R) m k : Rsum (map (fun o => m + k * o) l) = m * INR (length l) + k * Rsum l.
Proof.
  induction l as [| x l IH]; [cbn; ring|]. cbn [map length]. rewrite S_INR. unfold Rsum in *. cbn [fold_right].
  rewrite IH. ring.
Qed.

Lemma C26_bias_l los spread cas cphi la p sign z c :
  let center := azimuth_center los spread cphi la p sign z c in
  Rsum (map (fun r => center + cas * offset r) (seq 0 20)) / 20 = center + cas / 20.
Proof.
  intros center. replace (map (fun r => center + cas * offset r) (seq 0 20)) with (map (fun o => center + cas * o) ray_offsets) by reflexivity.
  rewrite Rsum_map_affine. destruct offsets_bad as (_ & _ & _ & ->).
  cbn [ray_offsets length]. replace (INR 20) with 20 by (rewrite INR_IZR_INZ; reflexivity). field.
Qed.

(* ---- inverting the coupling arrangement ---- *)
Fixpoint find_index (f : nat -> nat) (n y : nat) : nat :=
  match n with
  | O => O
  | S m => if Nat.eqb (f m) y then m else find_index f m y
  end.

Lemma find_index_spec f n y : (exists r, (r < n)%nat /\ f r = y) ->
  (find_index f n y < n)%nat /\ f (find_index f n y) = y.
Proof.
  induction n as [| n IH]; intros (r & Hr & E); [lia|]. cbn [find_index].
  destruct (Nat.eqb_spec (f n) y) as [E' | E']; [split; [lia | exact E']|].
  destruct IH as [A B]; [exists r; split; [| exact E]; assert (r <> n) by congruence; lia|]. split; [lia | exact B].
Qed.

Lemma invert srt : valid_argsort srt -> exists inv : (nat -> R) -> nat -> nat, forall rn rn',
  rearrangement 20 (fun q => inv rn (mixing srt rn' q)) /\
  forall q, (q < 20)%nat -> mixing srt rn (inv rn (mixing srt rn' q)) = mixing srt rn' q.
Proof.
  intros HS. exists (fun rn y => find_index (mixing srt rn) 20 y). intros rn rn'.
  destruct (mixing_rearr srt rn HS) as (X1 & X2 & X3), (mixing_rearr srt rn' HS) as (Y1 & Y2 & Y3).
  assert (S : forall q, (q < 20)%nat -> (find_index (mixing srt rn) 20 (mixing srt rn' q) < 20)%nat /\
     mixing srt rn (find_index (mixing srt rn) 20 (mixing srt rn' q)) = mixing srt rn' q).
  { intros q Hq. apply find_index_spec, X3, Y1, Hq. }
  split; [| intros q Hq; apply (S q Hq)]. split; [| split].
  - intros q Hq. apply (S q Hq).
  - intros q q' Hq Hq' E. apply Y2; try assumption. destruct (S q Hq) as [_ G], (S q' Hq') as [_ G']. congruence.
  - intros q Hq. destruct (Y3 (mixing srt rn q) (X1 q Hq)) as (r & Hr & Er). exists r. split; [exact Hr|].
    apply X2; [apply (S r Hr) | exact Hq|]. destruct (S r Hr) as [_ G]. congruence.
Qed.

(* C27 *)
Lemma C27_l sc st a dr st' mask srt lsps d rr : constructed sc -> set_topology sc st a dr = (st', Ok true) ->
  compute_clusters_mask st' = Ok mask -> valid_argsort srt -> gen_rays srt st' mask lsps d = Ok rr ->
  forall d' rr', gen_rays srt st' mask lsps d' = Ok rr' ->
    rd_x d' = rd_x d -> rd_shadow d' = rd_shadow d -> rd_xpr d' = rd_xpr d ->
    ad_sign (rd_aoa d') = ad_sign (rd_aoa d) -> ad_comp (rd_aoa d') = ad_comp (rd_aoa d) ->
    ad_sign (rd_aod d') = ad_sign (rd_aod d) -> ad_comp (rd_aod d') = ad_comp (rd_aod d) ->
    ad_sign (rd_zoa d') = ad_sign (rd_zoa d) -> ad_comp (rd_zoa d') = ad_comp (rd_zoa d) ->
    ad_sign (rd_zod d') = ad_sign (rd_zod d) -> ad_comp (rd_zod d') = ad_comp (rd_zod d) ->
  forall b s, exists f1 f2 f3 f4 : nat -> nat -> nat,
    (forall c, rearrangement 20 (f1 c) /\ rearrangement 20 (f2 c) /\ rearrangement 20 (f3 c) /\ rearrangement 20 (f4 c)) /\
    forall u r, rr b s u = Some r -> exists r', rr' b s u = Some r' /\
      r_delays r' = r_delays r /\ r_powers r' = r_powers r /\ (forall c q, r_xpr r' c q = r_xpr r c q) /\
      forall c q, (q < 20)%nat ->
        r_aoa r' c q = r_aoa r c (f1 c q) /\ r_aod r' c q = r_aod r c (f2 c q) /\
        r_zoa r' c q = r_zoa r c (f3 c q) /\ r_zod r' c q = r_zod r c (f4 c q).
Proof.
  intros Hc H HM HS HG d' rr' HG' E1 E2 E3 A1 A2 B1 B2 C1 C2 D1 D2 b s.
  destruct (make_ready _ _ _ _ _ Hc H) as (ls & los & g & ind & bs & mask' & R).
  assert (mask' = mask) by (assert (E := rd_mask _ _ _ _ _ _ _ _ R); congruence). subst mask'.
  assert (INVC : forall m m', exists f : nat -> nat -> nat, forall c, rearrangement 20 (f c) /\
     forall q, (q < 20)%nat -> mixing srt (m b s c) (f c q) = mixing srt (m' b s c) q).
  { intros m m'. destruct (invert srt HS) as (inv & HI). exists (fun c q => inv (m b s c) (mixing srt (m' b s c) q)).
    intros c. apply HI. }
  destruct (INVC (ad_mix (rd_aoa d)) (ad_mix (rd_aoa d'))) as (f1 & F1).
  destruct (INVC (ad_mix (rd_aod d)) (ad_mix (rd_aod d'))) as (f2 & F2).
  destruct (INVC (ad_mix (rd_zoa d)) (ad_mix (rd_zoa d'))) as (f3 & F3).
  destruct (INVC (ad_mix (rd_zod d)) (ad_mix (rd_zod d'))) as (f4 & F4).
  exists f1, f2, f3, f4. split; [intros c; repeat split; first [apply F1 | apply F2 | apply F3 | apply F4]|].
  intros u r Hr. destruct (link_angles _ _ _ _ _ _ _ _ _ _ _ _ b s u r R HG Hr) as (L & Hi & Q1 & Q2 & Q3 & Q4 & Q5).
  destruct (link_rays_outdoor _ _ _ _ _ _ _ _ _ _ _ _ b s u R HG Hi) as (r0 & Hr0 & D & P & _).
  assert (r0 = r) by congruence. subst r0.
  destruct (link_rays_outdoor _ _ _ _ _ _ _ _ _ _ _ _ b s u R HG' Hi) as (r' & Hr' & D' & P' & _).
  rewrite E1, ?E2 in D', P'. assert (EP : r_powers r' = r_powers r) by congruence.
  exists r'. split; [exact Hr'|]. split; [congruence|]. split; [exact EP|].
  destruct (link_angles _ _ _ _ _ _ _ _ _ _ _ _ b s u r' R HG' Hr') as (L' & _ & Q1' & Q2' & Q3' & Q4' & Q5').
  split; [intros c q; rewrite Q5, Q5', E3; reflexivity|].
  intros c q Hq. rewrite Q1, Q2, Q3, Q4, Q1', Q2', Q3', Q4', EP, A1, A2, B1, B2, C1, C2, D1, D2.
  destruct (F1 c) as [_ G1], (F2 c) as [_ G2], (F3 c) as [_ G3], (F4 c) as [_ G4].
  rewrite G1, G2, G3, G4 by exact Hq. repeat split; reflexivity.
Qed.

(* cross-polarisation ratios *)
Lemma xpr_l sc st a dr st' mask srt lsps d rr : constructed sc -> set_topology sc st a dr = (st', Ok true) ->
  compute_clusters_mask st' = Ok mask -> gen_rays srt st' mask lsps d = Ok rr ->
  exists los, s_los st' = Some los /\ forall b s u r, rr b s u = Some r -> exists mu sigma,
    documented_value (sc_env sc) (sc_fc sc) (sc_dir sc) (sc_elev sc) (los b s u) "muXPR" (Fin mu) /\
    documented_value (sc_env sc) (sc_fc sc) (sc_dir sc) (sc_elev sc) (los b s u) "sigmaXPR" (Fin sigma) /\
    forall c q, 0 < r_xpr r c q /\ 10 * (ln (r_xpr r c q) / ln 10) = mu + sigma * rd_xpr d b s u c q.
Proof.
  intros Hc H HM HG. destruct (make_ready _ _ _ _ _ Hc H) as (ls & los & g & ind & bs & mask' & R).
  assert (mask' = mask) by (assert (E := rd_mask _ _ _ _ _ _ _ _ R); congruence). subst mask'.
  exists los. split; [apply R|]. intros b s u r Hr.
  destruct (link_angles _ _ _ _ _ _ _ _ _ _ _ _ b s u r R HG Hr) as (_ & _ & _ & _ & _ & _ & Q).
  destruct (rd_col _ _ _ _ _ _ _ _ R (los b s u)) as [DC _]. unfold documented_column in DC.
  exists (lp_muXPR (ls_col ls (los b s u))), (lp_sigmaXPR (ls_col ls (los b s u))).
  split; [tauto|]. split; [tauto|]. intros c q. rewrite Q. split; [apply pow10_pos|].
  fold (log10 (pow10 ((lp_muXPR (ls_col ls (los b s u)) + lp_sigmaXPR (ls_col ls (los b s u)) * rd_xpr d b s u c q) / 10))).
  rewrite log10_pow10. field.
Qed.
