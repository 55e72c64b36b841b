(* Property C102: the cluster delays and powers in finite precision. *)
From Coq Require Import Reals String ZArith List Bool Arith Lra Permutation Sorted.
From Verif Require Import M_Base M_Params M_Geometry M_Scenario S_Config S_Topology M_Lsp M_Rays S_Rays M_Float M_PowerFp L_PowerFp.
Import ListNotations.
Open Scope string_scope.
Open Scope list_scope.
Open Scope R_scope.

(* C102: delays and powers computed with p significant bits, the powers added up in any order, against those of the exact model (C22, C23). *)
Theorem C102_accuracy :
  forall sc st a dr st' mask srt lsps d rr p,
  constructed sc -> set_topology sc st a dr = (st', Ok true) ->
  compute_clusters_mask st' = Ok mask -> gen_rays srt st' mask lsps d = Ok rr -> (24 <= p)%Z ->
  exists los ind n1 n2, s_los st' = Some los /\ s_in st' = Some ind /\
    (forall l, documented_value (sc_env sc) (sc_fc sc) (sc_dir sc) (sc_elev sc) l "numClusters"
                 (Fin (INR (if l then n1 else n2)))) /\
    forall b s u, t_at ind b u = false ->
      (los b s u = true -> Rpower 10 (- 6.3) <= l_k (lsps b s u)) ->
      0 < l_ds (lsps b s u) <= 0.01 ->
      (forall c, 1 / 10 ^ 6 <= rd_x d b s u c <= 1) -> (forall c, Rabs (rd_shadow d b s u c) <= 7) ->
      exists r rtau zeta, rr b s u = Some r /\
        documented_value (sc_env sc) (sc_fc sc) (sc_dir sc) (sc_elev sc) (los b s u) "rTau" (Fin rtau) /\
        documented_value (sc_env sc) (sc_fc sc) (sc_dir sc) (sc_elev sc) (los b s u) "zeta" (Fin zeta) /\
        let N := length (r_powers r) in
        let un := unscaled_delays_fp p N rtau (l_ds (lsps b s u)) (mask b s u) (rd_x d b s u) in
        let scale := if los b s u then los_scale (l_k (lsps b s u)) else 1 in
        N = Nat.max n1 n2 /\ length un = N /\ StronglySorted Rle un /\ nth 0 un 0 = 0 /\
        (forall c, (c < if los b s u then n1 else n2)%nat ->
           Rabs (nth c un 0 - scale * nth c (r_delays r) 0) <= 138 * powerRZ 2 (- p) * (rtau * l_ds (lsps b s u))) /\
        forall t, Permutation (terms t) (seq 0 N) -> exists q,
          cluster_powers_fp p N rtau (l_ds (lsps b s u)) zeta (mask b s u) (rd_shadow d b s u) un t = Some q /\
          length q = N /\ Rabs (Rsum q - 1) <= 8 * powerRZ 2 (- p) /\
          forall c, Rabs (nth c q 0 - nth c (r_powers r) 0) <= 1600 * powerRZ 2 (- p) * nth c (r_powers r) 0.
Proof. exact C102_l. Qed.
Print Assumptions C102_accuracy.

(* C102: the bounds in single precision (1e-4 of the power, 5e-7 of the sum, 9e-6 of the scaled spread) and in double precision. *)
Example C102_in_tensorflow_precisions :
  1600 * powerRZ 2 (- 24) <= / 10 ^ 4 /\ 8 * powerRZ 2 (- 24) <= 5 / 10 ^ 7 /\
  138 * powerRZ 2 (- 24) <= 9 / 10 ^ 6 /\ 1600 * powerRZ 2 (- 53) <= 2 / 10 ^ 13.
Proof. exact C102_single_l. Qed.

(* the hypotheses of C102 are met: an outdoor LoS UT of an Urban S-band scenario, with two different delays *)
Example C102_example : exists sc a dr st' mask los ind d rr, constructed sc /\
  set_topology sc (init_state sc) a dr = (st', Ok true) /\ compute_clusters_mask st' = Ok mask /\
  s_los st' = Some los /\ los 0%nat 0%nat 0%nat = true /\ s_in st' = Some ind /\ t_at ind 0%nat 0%nat = false /\
  exists lsps, gen_rays argsort st' mask lsps d = Ok rr /\
  Rpower 10 (- 6.3) <= l_k (lsps 0%nat 0%nat 0%nat) /\ 0 < l_ds (lsps 0%nat 0%nat 0%nat) <= 0.01 /\
  (forall c, 1 / 10 ^ 6 <= rd_x d 0%nat 0%nat 0%nat c <= 1) /\ rd_x d 0%nat 0%nat 0%nat 0%nat <> rd_x d 0%nat 0%nat 0%nat 1%nat /\
  (forall c, Rabs (rd_shadow d 0%nat 0%nat 0%nat c) <= 7).
Proof. exact C102_example_l. Qed.

(* the order of a sum: one that rearranges the terms, and two that give different sums of the same terms with two significant bits *)
Example C102_order : Permutation (terms (Plus (Term 0) (Plus (Term 2) (Term 1)))) (seq 0 3) /\
  let f c := if Nat.eqb c 0 then 1 else 1 / 6 in
  sum_fp 2 f (Plus (Plus (Term 0) (Term 1)) (Term 2)) = 1 /\ sum_fp 2 f (Plus (Term 0) (Plus (Term 1) (Term 2))) = 1.5.
Proof. exact C102_order_l. Qed.
