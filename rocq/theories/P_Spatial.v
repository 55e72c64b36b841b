(* Property C20 for the public method spatial_correlation_matrix. *)
From Coq Require Import Reals String List Bool Arith Lra.
From Verif Require Import M_Base M_Params S_Config M_Geometry M_Pathloss M_Scenario M_Lsp M_Spatial S_Linear S_Topology S_Lsp
  L_Scenario L_Topology L_Lsp L_Spatial.
Import ListNotations.
Open Scope R_scope.

(* C20, the public method: for every topology and every positive correlation distance D the matrix is exp(-d/D), a correlation matrix, 1/e at distance D, smaller for farther UTs, and has a Cholesky factor exactly for distinct X-Y positions. Before the first topology the method raises. *)
Theorem C20_public_matrix :
  forall sc, constructed sc ->
  (forall D, exists e, spatial_correlation (init_state sc) D = Err e) /\
  forall st a dr st' D, set_topology sc st a dr = (st', Ok true) -> 0 < D ->
  exists ut C, s_ut_loc st' = Some ut /\ spatial_correlation st' D = Ok C /\
  forall b,
    let M := C b in
    let n := t_num ut in
    let dist u u' := plane_distance (t_at ut b u) (t_at ut b u') in
    (forall u u', M u u' = exp (- dist u u' / D)) /\
    symmetric n M /\ (forall u, M u u = 1) /\ (forall u u', 0 < M u u' <= 1) /\
    (forall u u', dist u u' = D -> M u u' = exp (-1)) /\
    (forall u v w, dist u v < dist u w <-> M u w < M u v) /\
    pos_semidef n M /\
    ((exists L, is_cholesky n M L) <->
     forall u u', (u < n)%nat -> (u' < n)%nat -> u <> u' ->
       vx (t_at ut b u) <> vx (t_at ut b u') \/ vy (t_at ut b u) <> vy (t_at ut b u')).
Proof. exact C20_public_l. Qed.
Print Assumptions C20_public_matrix.

(* a topology change with two UTs at distinct positions and a factorisable matrix: see
   C18_C20_C60_example in P_Lsp.v; here with a correlation distance of 50 m *)
Example C20_public_example : exists sc a dr st' C,
  constructed sc /\ set_topology sc (init_state sc) a dr = (st', Ok true) /\
  spatial_correlation st' 50 = Ok C /\ C 0%nat 0%nat 0%nat = 1.
Proof.
  destruct example_constructed as (sc & Hc & _).
  destruct (two_ut_cov_l sc Hc) as (a & dr & st' & _ & _ & _ & H1 & _).
  destruct (proj2 (C20_public_l sc Hc) _ _ _ _ 50 H1 ltac:(lra)) as (ut & C & _ & E & P).
  exists sc, a, dr, st', C. split; [exact Hc|]. split; [exact H1|]. split; [exact E|].
  destruct (P 0%nat) as (_ & _ & D & _). apply D.
Qed.
