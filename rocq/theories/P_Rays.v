(* Properties C21-C27, C61, C62: cluster mask, delays, powers, ray angles, coupling, XPR. *)
From Coq Require Import Reals String List Bool Arith ZArith Permutation Sorting.Sorted.
From Verif Require Import M_Base M_Params S_Config M_Geometry M_Scenario M_Lsp S_Lsp S_Topology M_Rays S_Rays
  L_Topology L_Rays L_RaysEx.
Import ListNotations.
Open Scope string_scope.
Open Scope list_scope.
Open Scope R_scope.

(* C21: an outdoor link uses exactly the documented number of clusters of its state; an indoor link uses none. *)
Theorem C21_cluster_mask :
  forall sc st a dr st',
  constructed sc -> set_topology sc st a dr = (st', Ok true) ->
  exists los ind mask, s_los st' = Some los /\ s_in st' = Some ind /\ compute_clusters_mask st' = Ok mask /\
    forall b s u,
      (t_at ind b u = false -> exists n,
         documented_value (sc_env sc) (sc_fc sc) (sc_dir sc) (sc_elev sc) (los b s u) "numClusters" (Fin (INR n)) /\
         (2 <= n <= 4)%nat /\ forall c, mask b s u c = if Nat.ltb c n then 0 else 1) /\
      (t_at ind b u = true -> forall c, mask b s u c = 1).
Proof. exact C21_l. Qed.
Print Assumptions C21_cluster_mask.

(* C22: delays start at 0, ascend, and are the documented exponential delays of the draws, shifted and (LoS) divided by the K-factor polynomial, as long as K >= -63 dB. *)
Theorem C22_cluster_delays :
  forall sc st a dr st' mask srt lsps d rr,
  constructed sc -> set_topology sc st a dr = (st', Ok true) ->
  compute_clusters_mask st' = Ok mask -> gen_rays srt st' mask lsps d = Ok rr ->
  exists los n1 n2, s_los st' = Some los /\
    (forall l, documented_value (sc_env sc) (sc_fc sc) (sc_dir sc) (sc_elev sc) l "numClusters"
                 (Fin (INR (if l then n1 else n2)))) /\
    forall b s u r, rr b s u = Some r ->
      (los b s u = true -> Rpower 10 (- 6.3) <= l_k (lsps b s u)) ->
      length (r_delays r) = Nat.max n1 n2 /\ StronglySorted Rle (r_delays r) /\ nth 0 (r_delays r) 0 = 0 /\
      (forall t, In t (r_delays r) -> 0 <= t) /\
      exists rtau t0,
        documented_value (sc_env sc) (sc_fc sc) (sc_dir sc) (sc_elev sc) (los b s u) "rTau" (Fin rtau) /\
        let scale := if los b s u then los_scale (l_k (lsps b s u)) else 1 in
        0 < scale /\
        Permutation (map (fun t => scale * t + t0) (r_delays r))
          (map (raw_delay (if los b s u then n1 else n2) rtau (l_ds (lsps b s u)) (rd_x d b s u))
               (seq 0 (Nat.max n1 n2))).
Proof. exact C22_l. Qed.
Print Assumptions C22_cluster_delays.

(* C22 fails for very small K-factors: in every configuration some draws give a negative LoS delay. *)
Theorem C22_negative_delays_refuted :
  forall sc,
  constructed sc ->
  exists a dr st' C S mask, set_topology sc (init_state sc) a dr = (st', Ok true) /\
    cross_matrix st' = Ok C /\ spatial_matrix st' = Ok S /\ compute_clusters_mask st' = Ok mask /\
    (exists L, is_cholesky 7 (C 0%nat 0%nat 0%nat) L) /\ (exists L, is_cholesky 1 (S 0%nat 0%nat 4%nat) L) /\
    forall Lx Lsp srt, is_cholesky 7 (C 0%nat 0%nat 0%nat) (Lx 0%nat 0%nat 0%nat) ->
      is_cholesky 1 (S 0%nat 0%nat 4%nat) (Lsp 0%nat 0%nat 4%nat) ->
      exists z lsps d rr r t, sample_lsp st' 1 Lx Lsp z = Ok lsps /\
        (forall b s u c, 1 / 10 ^ 6 <= rd_x d b s u c < 1) /\
        gen_rays srt st' mask lsps d = Ok rr /\ rr 0%nat 0%nat 0%nat = Some r /\ In t (r_delays r) /\ t < 0.
Proof. exact negative_delays_l. Qed.
Print Assumptions C22_negative_delays_refuted.

(* C23: for an outdoor UT the powers are positive on the active clusters, 0 elsewhere, sum to 1, and follow the documented exponential decay. *)
Theorem C23_cluster_powers :
  forall sc st a dr st' mask srt lsps d rr,
  constructed sc -> set_topology sc st a dr = (st', Ok true) ->
  compute_clusters_mask st' = Ok mask -> gen_rays srt st' mask lsps d = Ok rr ->
  exists los ind n1 n2, s_los st' = Some los /\ s_in st' = Some ind /\
    (forall l, documented_value (sc_env sc) (sc_fc sc) (sc_dir sc) (sc_elev sc) l "numClusters"
                 (Fin (INR (if l then n1 else n2)))) /\
    forall b s u, t_at ind b u = false ->
      (los b s u = true -> Rpower 10 (- 6.3) <= l_k (lsps b s u)) ->
      exists r, rr b s u = Some r /\
      length (r_powers r) = Nat.max n1 n2 /\ Rsum (r_powers r) = 1 /\
      let n := if los b s u then n1 else n2 in
      (forall c, (c < n)%nat -> 0 < nth c (r_powers r) 0 <= 1) /\
      (forall c, (n <= c)%nat -> nth c (r_powers r) 0 = 0) /\
      exists rtau zeta total,
        documented_value (sc_env sc) (sc_fc sc) (sc_dir sc) (sc_elev sc) (los b s u) "rTau" (Fin rtau) /\
        documented_value (sc_env sc) (sc_fc sc) (sc_dir sc) (sc_elev sc) (los b s u) "zeta" (Fin zeta) /\
        let scale := if los b s u then los_scale (l_k (lsps b s u)) else 1 in
        0 < total /\
        forall c, (c < n)%nat -> nth c (r_powers r) 0 * total =
          exp (- (scale * nth c (r_delays r) 0) * (rtau - 1) / (rtau * l_ds (lsps b s u)))
          * Rpower 10 (- (zeta * rd_shadow d b s u c) / 10).
Proof. exact C23_l. Qed.
Print Assumptions C23_cluster_powers.

(* C23: the powers used for the angles sum to 1 when the cluster powers do, and give the first cluster the share K/(K+1). *)
Theorem C23_powers_for_angles :
  forall (los : bool) k p,
  0 < k -> p <> [] ->
  let q := powers_for_angles los k p in
  length q = length p /\
  Rsum q = (if los then (Rsum p + k) / (k + 1) else Rsum p) /\
  (forall c, nth c q 0 = if los then nth c p 0 / (k + 1) + (if Nat.eqb c 0 then k / (k + 1) else 0) else nth c p 0).
Proof. exact powers_for_angles_spec. Qed.
Print Assumptions C23_powers_for_angles.

(* C23 fails for an indoor UT, in every configuration and for all draws: there is no active cluster and the normalisation is 0/0. *)
Theorem C23_indoor_refuted :
  forall sc p l dr,
  constructed sc -> exists st' ind mask,
  set_topology sc (init_state sc) (one_ut p true l) dr = (st', Ok true) /\
  s_in st' = Some ind /\ t_at ind 0%nat 0%nat = true /\ compute_clusters_mask st' = Ok mask /\
  forall srt lsps d, exists rr, gen_rays srt st' mask lsps d = Ok rr /\ rr 0%nat 0%nat 0%nat = None.
Proof. exact indoor_refuted_l. Qed.
Print Assumptions C23_indoor_refuted.

(* C24: range and direction of every ray azimuth. *)
Theorem C24_azimuth_angles :
  forall sc st a dr st' mask srt lsps d rr,
  constructed sc -> set_topology sc st a dr = (st', Ok true) ->
  compute_clusters_mask st' = Ok mask -> valid_argsort srt -> gen_rays srt st' mask lsps d = Ok rr ->
  exists los g bs, s_los st' = Some los /\ s_geo st' = Some g /\ s_bs_loc st' = Some bs /\
    forall b s u r, rr b s u = Some r -> (los b s u = true -> 0 < l_k (lsps b s u)) ->
    let x := lsps b s u in
    let doc := documented_value (sc_env sc) (sc_fc sc) (sc_dir sc) (sc_elev sc) (los b s u) in
    let n := length (r_powers r) in
    exists casa casd cphi zr,
      doc "cASA" (Fin casa) /\ doc "cASD" (Fin casd) /\ doc "CPhiNLoS" (Fin cphi) /\
      relative_powers n (angle_power (los b s u) (l_k x) (r_powers r)) zr /\
      let asd := if Rle_dec 160000 (vz (t_at bs 0%nat 0%nat)) then 0 else l_asd x in
      let C := cphi * cphi_factor (los b s u) (l_k x) in
      let arr c := azimuth_deviation (l_asa x) C (zr c) (ad_sign (rd_aoa d) b s c) (ad_comp (rd_aoa d) b s u c) in
      let dep c := azimuth_deviation asd C (zr c) (ad_sign (rd_aod d) b s c) (ad_comp (rd_aod d) b s u c) in
      forall c, exists pa pd, rearrangement 20 pa /\ rearrangement 20 pd /\
        forall q, (q < 20)%nat ->
          - PI < r_aoa r c q <= PI /\ - PI < r_aod r c q <= PI /\
          same_angle (degrees (r_aoa r c q))
            (g_aoa g b s u + arr c - (if los b s u then arr 0%nat else 0) + casa * nth (pa q) ray_offsets 0) /\
          same_angle (degrees (r_aod r c q))
            (g_aod g b s u + dep c - (if los b s u then dep 0%nat else 0) + casd * nth (pd q) ray_offsets 0) /\
          (los b s u = true -> c = 0%nat ->
             same_angle (degrees (r_aoa r c q)) (g_aoa g b s u + casa * nth (pa q) ray_offsets 0) /\
             same_angle (degrees (r_aod r c q)) (g_aod g b s u + casd * nth (pd q) ray_offsets 0)) /\
          (160000 <= vz (t_at bs 0%nat 0%nat) ->
             same_angle (degrees (r_aod r c q)) (g_aod g b s u + casd * nth (pd q) ray_offsets 0)).
Proof. exact C24_l. Qed.
Print Assumptions C24_azimuth_angles.

(* C25: range and cone of every ray zenith. *)
Theorem C25_zenith_angles :
  forall sc st a dr st' mask srt lsps d rr,
  constructed sc -> set_topology sc st a dr = (st', Ok true) ->
  compute_clusters_mask st' = Ok mask -> valid_argsort srt -> gen_rays srt st' mask lsps d = Ok rr ->
  exists los g ut bs, s_los st' = Some los /\ s_geo st' = Some g /\ s_ut_loc st' = Some ut /\ s_bs_loc st' = Some bs /\
    forall b s u r, rr b s u = Some r -> (los b s u = true -> 0 < l_k (lsps b s u)) ->
    let x := lsps b s u in
    let doc := documented_value (sc_env sc) (sc_fc sc) (sc_dir sc) (sc_elev sc) (los b s u) in
    let n := length (r_powers r) in
    exists czsa czsd mzsd cth zr,
      doc "cZSA" (Fin czsa) /\ doc "muZSD" mzsd /\ doc "CThetaNLoS" (Fin cth) /\
      (mzsd = NegInf -> czsd = 0) /\ (forall m, mzsd = Fin m -> czsd = 3 / 8 * Rpower 10 (Rmax (-100) m)) /\
      relative_powers n (angle_power (los b s u) (l_k x) (r_powers r)) zr /\
      let zsd := if Rle_dec 160000 (vz (t_at bs 0%nat 0%nat)) then 0 else l_zsd x in
      let C := cth * ctheta_factor (los b s u) (l_k x) in
      let arr c := zenith_deviation (l_zsa x) C (zr c) (ad_sign (rd_zoa d) b s c) (ad_comp (rd_zoa d) b s u c) in
      let dep c := zenith_deviation zsd C (zr c) (ad_sign (rd_zod d) b s c) (ad_comp (rd_zod d) b s u c) in
      let shift := atan ((35 - 3.5) / plane_distance (t_at ut b u) (t_at bs b s))
                   - atan ((35 - 1.5) / plane_distance (t_at ut b u) (t_at bs b s)) in
      forall c, exists pa pd, rearrangement 20 pa /\ rearrangement 20 pd /\
        forall q, (q < 20)%nat ->
          0 <= r_zoa r c q <= PI /\ 0 <= r_zod r c q <= PI /\
          same_cone (degrees (r_zoa r c q))
            (g_zoa g b s u + arr c + (if los b s u then - arr 0%nat else 0) + czsa * nth (pa q) ray_offsets 0) /\
          same_cone (degrees (r_zod r c q))
            (g_zod g b s u + dep c + (if los b s u then - dep 0%nat else shift) + czsd * nth (pd q) ray_offsets 0) /\
          (los b s u = true -> c = 0%nat ->
             cos (r_zoa r c q) = cos ((g_zoa g b s u + czsa * nth (pa q) ray_offsets 0) * (PI / 180)) /\
             cos (r_zod r c q) = cos ((g_zod g b s u + czsd * nth (pd q) ray_offsets 0) * (PI / 180))).
Proof. exact C25_l. Qed.
Print Assumptions C25_zenith_angles.

(* C25, indoor arrivals at the level of one link; missing: an end-to-end statement, as the powers of an indoor link are undefined (C23_indoor_refuted). *)
Theorem C25_indoor_partial :
  forall los spread cas cth la zo p sign z c r,
  exists center, (forall r', same_cone (zenith_angle ZOA los true spread cas cth la zo p sign z c r') (center + cas * nth r' ray_offsets 0)) /\
    center = 90 + zenith_deviation spread cth (rel_power p c) (sign c) (z c) /\
    0 <= zenith_angle ZOA los true spread cas cth la zo p sign z c r <= 180.
Proof. exact C25_indoor_l. Qed.
Print Assumptions C25_indoor_partial.

(* C26: nine of the ten offset pairs are the symmetric ones of the table; missing: the pair of C26_offset_pair_refuted. *)
Theorem C26_symmetric_offsets_partial :
  forall i,
  (i < 10)%nat -> i <> 7%nat ->
  nth (2 * i) ray_offsets 0 = nth i table_7_5_3 0 /\ nth (2 * i + 1) ray_offsets 0 = - nth i table_7_5_3 0.
Proof. exact offsets_value. Qed.
Print Assumptions C26_symmetric_offsets_partial.

(* C26 fails for rays 15 and 16. *)
Theorem C26_offset_pair_refuted :
  nth 14 ray_offsets 0 = nth 7 table_7_5_3 0 /\
  nth 15 ray_offsets 0 <> - nth 7 table_7_5_3 0 /\ ~ In (- nth 14 ray_offsets 0) ray_offsets /\ Rsum ray_offsets = 1.
Proof. exact offsets_bad. Qed.
Print Assumptions C26_offset_pair_refuted.

(* C26: consequently the mean ray direction differs from the cluster centre by cAS/20. *)
Theorem C26_cluster_bias_refuted :
  forall los spread cas cphi la p sign z c,
  let center := azimuth_center los spread cphi la p sign z c in
  Rsum (map (fun r => center + cas * offset r) (seq 0 20)) / 20 = center + cas / 20.
Proof. exact C26_bias_l. Qed.
Print Assumptions C26_cluster_bias_refuted.

(* C27: two runs that differ only in the coupling draws differ by one rearrangement per cluster and angle kind, the same for all UTs. *)
Theorem C27_random_coupling :
  forall sc st a dr st' mask srt lsps d rr,
  constructed sc -> set_topology sc st a dr = (st', Ok true) ->
  compute_clusters_mask st' = Ok mask -> valid_argsort srt -> gen_rays srt st' mask lsps d = Ok rr ->
  forall d' rr', gen_rays srt st' mask lsps d' = Ok rr' ->
    rd_x d' = rd_x d -> rd_shadow d' = rd_shadow d -> rd_xpr d' = rd_xpr d ->
    ad_sign (rd_aoa d') = ad_sign (rd_aoa d) -> ad_comp (rd_aoa d') = ad_comp (rd_aoa d) ->
    ad_sign (rd_aod d') = ad_sign (rd_aod d) -> ad_comp (rd_aod d') = ad_comp (rd_aod d) ->
    ad_sign (rd_zoa d') = ad_sign (rd_zoa d) -> ad_comp (rd_zoa d') = ad_comp (rd_zoa d) ->
    ad_sign (rd_zod d') = ad_sign (rd_zod d) -> ad_comp (rd_zod d') = ad_comp (rd_zod d) ->
  forall b s, exists f1 f2 f3 f4 : nat -> nat -> nat,
    (forall c, rearrangement 20 (f1 c) /\ rearrangement 20 (f2 c) /\ rearrangement 20 (f3 c) /\ rearrangement 20 (f4 c)) /\
    forall u r, rr b s u = Some r -> exists r', rr' b s u = Some r' /\
      r_delays r' = r_delays r /\ r_powers r' = r_powers r /\ (forall c q, r_xpr r' c q = r_xpr r c q) /\
      forall c q, (q < 20)%nat ->
        r_aoa r' c q = r_aoa r c (f1 c q) /\ r_aod r' c q = r_aod r c (f2 c q) /\
        r_zoa r' c q = r_zoa r c (f3 c q) /\ r_zod r' c q = r_zod r c (f4 c q).
Proof. exact C27_l. Qed.
Print Assumptions C27_random_coupling.

(* C61 fails: an NLoS departure direction misses the documented offset expressed in degrees. *)
Theorem C61_zod_offset_unit_refuted :
  exists sc a dr st' ut bs los mask,
  constructed sc /\ set_topology sc (init_state sc) a dr = (st', Ok true) /\ compute_clusters_mask st' = Ok mask /\
  s_ut_loc st' = Some ut /\ s_bs_loc st' = Some bs /\ s_los st' = Some los /\ los 0%nat 0%nat 0%nat = false /\
  documented_value (sc_env sc) (sc_fc sc) (sc_dir sc) (sc_elev sc) false "muZSD" NegInf /\
  160000 <= vz (t_at bs 0%nat 0%nat) /\
  let d := plane_distance (t_at ut 0%nat 0%nat) (t_at bs 0%nat 0%nat) in
  let shift_in_degrees := degrees (atan ((35 - 3.5) / d) - atan ((35 - 1.5) / d)) in
  forall srt lsps dd rr r, valid_argsort srt -> gen_rays srt st' mask lsps dd = Ok rr -> rr 0%nat 0%nat 0%nat = Some r ->
    forall c q, (q < 20)%nat ->
      ~ same_cone (degrees (r_zod r c q)) (los_zod (t_at ut 0%nat 0%nat) (t_at bs 0%nat 0%nat) + shift_in_degrees).
Proof. exact zod_unit_l. Qed.
Print Assumptions C61_zod_offset_unit_refuted.

(* C62: XPR values are positive and log-normal with the documented mean and deviation. *)
Theorem C62_cross_polarisation :
  forall sc st a dr st' mask srt lsps d rr,
  constructed sc -> set_topology sc st a dr = (st', Ok true) ->
  compute_clusters_mask st' = Ok mask -> gen_rays srt st' mask lsps d = Ok rr ->
  exists los, s_los st' = Some los /\ forall b s u r, rr b s u = Some r -> exists mu sigma,
    documented_value (sc_env sc) (sc_fc sc) (sc_dir sc) (sc_elev sc) (los b s u) "muXPR" (Fin mu) /\
    documented_value (sc_env sc) (sc_fc sc) (sc_dir sc) (sc_elev sc) (los b s u) "sigmaXPR" (Fin sigma) /\
    forall c q, 0 < r_xpr r c q /\ 10 * (ln (r_xpr r c q) / ln 10) = mu + sigma * rd_xpr d b s u c q.
Proof. exact xpr_l. Qed.
Print Assumptions C62_cross_polarisation.

(* the hypotheses of the theorems above are met: an outdoor LoS UT of an Urban S-band scenario *)
Example rays_example : exists sc a dr st' mask los, constructed sc /\
  set_topology sc (init_state sc) a dr = (st', Ok true) /\ compute_clusters_mask st' = Ok mask /\
  s_los st' = Some los /\ los 0%nat 0%nat 0%nat = true /\
  exists srt d, valid_argsort srt /\ forall lsps, exists rr r, gen_rays srt st' mask lsps d = Ok rr /\ rr 0%nat 0%nat 0%nat = Some r.
Proof. exact rays_example_l. Qed.

(* a K-factor for which the LoS theorems apply: K = 1 (0 dB) *)
Example rays_example_K : Rpower 10 (- 6.3) <= 1.
Proof. exact k_one_ok. Qed.
