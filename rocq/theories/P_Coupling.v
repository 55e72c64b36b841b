(* Property C107: the random coupling of the rays is fair. *)
From Coq Require Import Reals String List Bool Arith Lia.
From Verif Require Import M_Base M_Params S_Config M_Geometry M_Pathloss M_Scenario S_Topology M_Lsp M_Rays S_Rays S_Coupling L_Coupling.
Open Scope R_scope.

(* C107: the arrangement of the rays of a cluster, for each kind of angle, is a function of that cluster's and kind's own twenty draws, the same for all UTs; of the ways to deal twenty distinct values to the rays exactly one gives each arrangement. *)
Theorem C107_fair :
  forall srt,
  valid_argsort srt -> exists A : (nat -> R) -> nat -> nat,
  (forall w, rearrangement 20 (A w)) /\
  (forall v, distinct_values 20 v -> forall f, rearrangement 20 f ->
     exists w, deals 20 v w /\ (forall q, (q < 20)%nat -> A w q = f q) /\
       forall w', deals 20 v w' -> (forall q, (q < 20)%nat -> A w' q = f q) -> forall q, (q < 20)%nat -> w' q = w q) /\
  forall sc st a dr st' mask lsps d rr,
  constructed sc -> set_topology sc st a dr = (st', Ok true) ->
  compute_clusters_mask st' = Ok mask -> gen_rays srt st' mask lsps d = Ok rr ->
  forall b s u r, rr b s u = Some r ->
  exists aoa aod zoa zod : nat -> nat -> R,
  forall m1 m2 m3 m4, exists rr' r',
    gen_rays srt st' mask lsps (recoupled d m1 m2 m3 m4) = Ok rr' /\ rr' b s u = Some r' /\
    r_delays r' = r_delays r /\ r_powers r' = r_powers r /\ (forall c q, r_xpr r' c q = r_xpr r c q) /\
    forall c q, (q < 20)%nat ->
      r_aoa r' c q = aoa c (A (m1 b s c) q) /\ r_aod r' c q = aod c (A (m2 b s c) q) /\
      r_zoa r' c q = zoa c (A (m3 b s c) q) /\ r_zod r' c q = zod c (A (m4 b s c) q).
Proof. exact C107_fair_l. Qed.
Print Assumptions C107_fair.

(* C107: whatever arrangements are asked for, cluster by cluster and kind by kind, some deal of the coupling draws turns a run into one with these arrangements and nothing else changed. *)
Theorem C107_reaches :
  forall sc st a dr st' mask srt lsps d rr,
  constructed sc -> set_topology sc st a dr = (st', Ok true) ->
  compute_clusters_mask st' = Ok mask -> valid_argsort srt -> gen_rays srt st' mask lsps d = Ok rr ->
  forall v, distinct_values 20 v -> forall f1 f2 f3 f4 : nat -> nat -> nat -> nat -> nat,
  (forall b s c, rearrangement 20 (f1 b s c) /\ rearrangement 20 (f2 b s c) /\ rearrangement 20 (f3 b s c) /\ rearrangement 20 (f4 b s c)) ->
  exists d' rr',
    rd_x d' = rd_x d /\ rd_shadow d' = rd_shadow d /\ rd_xpr d' = rd_xpr d /\
    ad_sign (rd_aoa d') = ad_sign (rd_aoa d) /\ ad_comp (rd_aoa d') = ad_comp (rd_aoa d) /\
    ad_sign (rd_aod d') = ad_sign (rd_aod d) /\ ad_comp (rd_aod d') = ad_comp (rd_aod d) /\
    ad_sign (rd_zoa d') = ad_sign (rd_zoa d) /\ ad_comp (rd_zoa d') = ad_comp (rd_zoa d) /\
    ad_sign (rd_zod d') = ad_sign (rd_zod d) /\ ad_comp (rd_zod d') = ad_comp (rd_zod d) /\
    (forall b s c, deals 20 v (ad_mix (rd_aoa d') b s c) /\ deals 20 v (ad_mix (rd_aod d') b s c) /\
       deals 20 v (ad_mix (rd_zoa d') b s c) /\ deals 20 v (ad_mix (rd_zod d') b s c)) /\
    gen_rays srt st' mask lsps d' = Ok rr' /\
    forall b s u r, rr b s u = Some r -> exists r', rr' b s u = Some r' /\
      r_delays r' = r_delays r /\ r_powers r' = r_powers r /\ (forall c q, r_xpr r' c q = r_xpr r c q) /\
      forall c q, (q < 20)%nat ->
        r_aoa r' c q = r_aoa r c (f1 b s c q) /\ r_aod r' c q = r_aod r c (f2 b s c q) /\
        r_zoa r' c q = r_zoa r c (f3 b s c q) /\ r_zod r' c q = r_zod r c (f4 b s c q).
Proof. exact C107_reach_l. Qed.
Print Assumptions C107_reaches.

(* the hypotheses hold: a stock of twenty numbers, the deal that reverses it, a sorter; the runs of rays_example (P_Rays) supply the rest *)
Example C107_example : distinct_values 20 INR /\ rearrangement 20 (fun q => 19 - q)%nat /\
  deals 20 INR (fun q => INR (19 - q)) /\ valid_argsort argsort.
Proof. exact C107_example_l. Qed.
