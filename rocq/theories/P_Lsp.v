(* Properties C18-C20 and C60: sampled large-scale parameters and their correlation matrices. *)
From Coq Require Import Reals String List Bool ZArith Lra Lia.
From Verif Require Import M_Base M_Params S_Config M_Geometry M_Pathloss M_Scenario M_Lsp S_Topology S_Linear S_Lsp
  L_Scenario L_Topology L_Lsp.
Import ListNotations.
Open Scope string_scope.
Open Scope list_scope.
Open Scope R_scope.

(* C18: ranges of the sampled parameters after any updating call, for all draws and filter matrices. *)
Theorem C18_large_scale_parameter_ranges :
  forall sc st a dr st' nut Lx Lsp z, constructed sc -> set_topology sc st a dr = (st', Ok true) ->
  exists los f, s_los st' = Some los /\ sample_lsp st' nut Lx Lsp z = Ok f /\
    forall b s u,
      0 < l_ds (f b s u) /\ 0 < l_sf (f b s u) /\ 0 < l_k (f b s u) /\
      0 <= l_asd (f b s u) <= 104 /\ 0 < l_asa (f b s u) <= 104 /\
      0 < l_zsa (f b s u) <= 52 /\ 0 <= l_zsd (f b s u) <= 52 /\
      (l_asd (f b s u) = 0 <->
       documented_value (sc_env sc) (sc_fc sc) (sc_dir sc) (sc_elev sc) (los b s u) "muASD" NegInf) /\
      (l_zsd (f b s u) = 0 <->
       documented_value (sc_env sc) (sc_fc sc) (sc_dir sc) (sc_elev sc) (los b s u) "muZSD" NegInf) /\
      (sc_dir sc = "uplink" -> 0 < l_asd (f b s u) /\ 0 < l_zsd (f b s u)).
Proof. exact C18_l. Qed.
Print Assumptions C18_large_scale_parameter_ranges.

(* C19: the cross-correlation matrix of every link. *)
Theorem C19_cross_correlation_matrices :
  forall sc st a dr st', constructed sc -> set_topology sc st a dr = (st', Ok true) ->
  exists los C, s_los st' = Some los /\ cross_matrix st' = Ok C /\
    forall b s u,
      let M := C b s u in
      symmetric 7 M /\ (forall i, (i < 7)%nat -> M i i = 1) /\ pos_def 7 M /\
      (forall i j, (i < 7)%nat -> (j < 7)%nat -> i <> j -> -1 < M i j < 1) /\
      (forall X Y i j, In (X, Y) coefficient_pairs -> lsp_index X i -> lsp_index Y j ->
         documented_value (sc_env sc) (sc_fc sc) (sc_dir sc) (sc_elev sc) (los b s u)
           ("corr" ++ X ++ "vs" ++ Y)%string (Fin (M i j))) /\
      exists L, is_cholesky 7 M L.
Proof. exact C19_l. Qed.
Print Assumptions C19_cross_correlation_matrices.

(* C20: the spatial correlation matrix of every BS and parameter, any number of UTs; a Cholesky factor
   exists exactly when UTs in the same state have distinct X-Y positions. *)
Theorem C20_spatial_correlation_matrices :
  forall sc st a dr st', constructed sc -> set_topology sc st a dr = (st', Ok true) ->
  exists ut ind los S, s_ut_loc st' = Some ut /\ s_in st' = Some ind /\ s_los st' = Some los /\
    spatial_matrix st' = Ok S /\
    forall b s X i, lsp_index X i ->
      let M := S b s i in
      let n := t_num ut in
      let state u := state_of (t_at ind b u) (los b s u) in
      symmetric n M /\ (forall u, M u u = 1) /\ (forall u u', 0 <= M u u' <= 1) /\
      (forall u u', state u <> state u' -> M u u' = 0) /\
      (forall u u' D, state u = state u' ->
         documented_value (sc_env sc) (sc_fc sc) (sc_dir sc) (sc_elev sc) (los b s u)
           ("corrDist" ++ X)%string (Fin D) ->
         0 < D /\ M u u' = exp (- plane_distance (t_at ut b u) (t_at ut b u') / D)) /\
      pos_semidef n M /\
      ((exists L, is_cholesky n M L) <->
       forall u u', (u < n)%nat -> (u' < n)%nat -> u <> u' -> state u = state u' ->
         vx (t_at ut b u) <> vx (t_at ut b u') \/ vy (t_at ut b u) <> vy (t_at ut b u')).
Proof. exact C20_l. Qed.
Print Assumptions C20_spatial_correlation_matrices.

(* C60: the Gaussian variates behind the parameters are linear in the draws and have the requested spatial
   covariance. UTs in different states are uncorrelated. The cross-correlation is the requested one for the first
   UT of each state; for any other outdoor UT it is the requested one times a factor of at most 1, which is 1 for
   parameters with the same spatial correlation. *)
Theorem C60_variates_have_requested_correlation :
  forall sc st a dr st' C S Lx Lsp b s,
  constructed sc -> set_topology sc st a dr = (st', Ok true) ->
  cross_matrix st' = Ok C -> spatial_matrix st' = Ok S ->
  forall nut,
  (forall u, (u < nut)%nat -> is_cholesky 7 (C b s u) (Lx b s u)) ->
  (forall i, (i < 7)%nat -> is_cholesky nut (S b s i) (Lsp b s i)) ->
  exists los ind V, s_los st' = Some los /\ s_in st' = Some ind /\
    let state u := state_of (t_at ind b u) (los b s u) in
    (forall i u, linear_in_draws nut (V i u)) /\
    (forall z, exists f, sample_lsp st' nut Lx Lsp z = Ok f /\
       forall u, exists lp, documented_column sc (los b s u) lp /\
         l_ds (f b s u) = pow10 (lp_sigmaDS lp * V 0%nat u (z b s) + lp_muDS lp) /\
         l_asa (f b s u) = Rmin 104 (pow10 (lp_sigmaASA lp * V 2%nat u (z b s) + lp_muASA lp)) /\
         l_sf (f b s u) = pow10 (lp_sigmaSF lp * V 3%nat u (z b s) / 10) /\
         l_k (f b s u) = pow10 ((lp_sigmaK lp * V 4%nat u (z b s) + lp_muK lp) / 10) /\
         l_zsa (f b s u) = Rmin 52 (pow10 (lp_sigmaZSA lp * V 5%nat u (z b s) + lp_muZSA lp)) /\
         (forall m, lp_muASD lp = Fin m ->
            l_asd (f b s u) = Rmin 104 (pow10 (lp_sigmaASD lp * V 1%nat u (z b s) + m))) /\
         (forall m, lp_muZSD lp = Fin m ->
            l_zsd (f b s u) = Rmin 52 (pow10 (lp_sigmaZSD lp * V 6%nat u (z b s) + m)))) /\
    (forall i u u', (i < 7)%nat -> (u < nut)%nat -> (u' < nut)%nat ->
       covariance nut (V i u) (V i u') = S b s i u u') /\
    (forall i j u u', (i < 7)%nat -> (j < 7)%nat -> (u < nut)%nat -> (u' < nut)%nat -> state u <> state u' ->
       covariance nut (V i u) (V j u') = 0) /\
    (forall i j u, (i < 7)%nat -> (j < 7)%nat -> (u < nut)%nat -> (forall w, (w < u)%nat -> state w <> state u) ->
       covariance nut (V i u) (V j u) = C b s u i j) /\
    (forall i j u, (i < 7)%nat -> (j < 7)%nat -> (u < nut)%nat -> t_at ind b u = false ->
       exists rho, covariance nut (V i u) (V j u) = rho * C b s u i j /\ Rabs rho <= 1 /\
         ((forall v w, (v < nut)%nat -> (w < nut)%nat -> S b s i v w = S b s j v w) -> rho = 1)).
Proof. exact C60_l. Qed.
Print Assumptions C60_variates_have_requested_correlation.

(* C60 fails for two UTs: in every configuration there is a topology for which the correlation of the
   delay spread with the shadow fading of the second UT is strictly weaker than the table's. *)
Theorem C60_cross_correlation_two_uts_refuted :
  forall sc, constructed sc ->
  exists a dr st' C S lp,
    set_topology sc (init_state sc) a dr = (st', Ok true) /\ cross_matrix st' = Ok C /\ spatial_matrix st' = Ok S /\
    documented_column sc true lp /\
    (forall b s, exists Lx Lsp, (forall u, (u < 2)%nat -> is_cholesky 7 (C b s u) (Lx u)) /\
       (forall i, (i < 7)%nat -> is_cholesky 2 (S b s i) (Lsp i))) /\
    forall Lx Lsp F,
      (forall u, (u < 2)%nat -> is_cholesky 7 (C 0%nat 0%nat u) (Lx 0%nat 0%nat u)) ->
      (forall i, (i < 7)%nat -> is_cholesky 2 (S 0%nat 0%nat i) (Lsp 0%nat 0%nat i)) ->
      (forall z, sample_lsp st' 2 Lx Lsp (fun _ _ => z) = Ok (F z)) ->
      let ds z := log10 (l_ds (F z 0%nat 0%nat 1%nat)) - log10 (l_ds (F (fun _ _ => 0) 0%nat 0%nat 1%nat)) in
      let sf z := log10 (l_sf (F z 0%nat 0%nat 1%nat)) - log10 (l_sf (F (fun _ _ => 0) 0%nat 0%nat 1%nat)) in
      C 0%nat 0%nat 1%nat 0%nat 3%nat < 0 /\
      lp_sigmaDS lp * (lp_sigmaSF lp / 10) * C 0%nat 0%nat 1%nat 0%nat 3%nat < covariance 2 ds sf < 0.
Proof. exact two_ut_cov_l. Qed.
Print Assumptions C60_cross_correlation_two_uts_refuted.

(* the hypotheses are met: a two-UT call succeeds and both families of factors exist *)
Example C18_C20_C60_example : exists sc a dr st' C S,
  constructed sc /\ set_topology sc (init_state sc) a dr = (st', Ok true) /\
  cross_matrix st' = Ok C /\ spatial_matrix st' = Ok S /\
  exists Lx Lsp, (forall u, (u < 2)%nat -> is_cholesky 7 (C 0%nat 0%nat u) (Lx u)) /\
    (forall i, (i < 7)%nat -> is_cholesky 2 (S 0%nat 0%nat i) (Lsp i)).
Proof.
  destruct example_constructed as (sc & Hc & _).
  destruct (two_ut_cov_l sc Hc) as (a & dr & st' & C & S & lp & H1 & H2 & H3 & _ & H4 & _).
  exists sc, a, dr, st', C, S. repeat split; try assumption; apply H4.
Qed.
