(* The public spatial correlation matrix: the kernel lemmas of L_Lsp with all UTs in one state. *)
From Coq Require Import Reals String List Bool Arith Lia Lra.
From Verif Require Import M_Base L_Base M_Params S_Config M_Geometry M_Pathloss M_Scenario M_Lsp M_Spatial
  S_Linear L_Linear S_Topology L_Scenario L_Fresh L_Topology S_Lsp L_Lsp.
Import ListNotations.
Open Scope R_scope.

Lemma C20_public_l : forall sc, constructed sc ->
  (forall D, exists e, spatial_correlation (init_state sc) D = Err e) /\
  forall st a dr st' D, set_topology sc st a dr = (st', Ok true) -> 0 < D ->
  exists ut C, s_ut_loc st' = Some ut /\ spatial_correlation st' D = Ok C /\
  forall b,
    let M := C b in
    let n := t_num ut in
    let dist u u' := plane_distance (t_at ut b u) (t_at ut b u') in
    (forall u u', M u u' = exp (- dist u u' / D)) /\
    symmetric n M /\ (forall u, M u u = 1) /\ (forall u u', 0 < M u u' <= 1) /\
    (forall u u', dist u u' = D -> M u u' = exp (-1)) /\
    (forall u v w, dist u v < dist u w <-> M u w < M u v) /\
    pos_semidef n M /\
    ((exists L, is_cholesky n M L) <->
     forall u u', (u < n)%nat -> (u' < n)%nat -> u <> u' ->
       vx (t_at ut b u) <> vx (t_at ut b u') \/ vy (t_at ut b u) <> vy (t_at ut b u')).
Proof.
  intros sc Hc. split; [intros D; eexists; reflexivity|].
  intros st a dr st' D H PD. assert (Ha := constructed_accepted sc Hc).
  destruct (update_content _ _ _ _ _ Ha H) as (ut & bs & ind & p & U1 & _ & _ & _ & _ & _ & _ & _ & _ & _ & _ &
    (g & G1 & _ & _ & _ & _ & _ & G7) & _).
  exists ut. unfold spatial_correlation. rewrite G1. eexists. split; [exact U1|]. split; [reflexivity|].
  intros b. cbv zeta. set (M := fun u u' => exp (- g_utd g b u u' / D)).
  set (off := fun _ : nat => false).
  assert (Hex : forall u, off u = true -> off u = false) by (intros u E; discriminate E).
  assert (HD : forall x : bool, 0 < (fun _ : bool => D) x) by (intros _; exact PD).
  set (M' := fun u u' => exp (dist_2d (t_at ut b u') (t_at ut b u) * (- 1 / (fun _ : bool => D) (off u))) * pair_filter off off u u').
  assert (EM : forall u u', M u u' = M' u u').
  { intros u u'. unfold M, M'. rewrite G7. unfold pair_filter, off. cbn [andb negb]. rewrite Rmult_1_r. f_equal. unfold Rdiv. ring. }
  assert (EV : forall u u', M u u' = exp (- plane_distance (t_at ut b u) (t_at ut b u') / D)).
  { intros u u'. rewrite EM. apply (M_same off off (t_at ut b) (fun _ => D) Hex). reflexivity. }
  assert (EQ : forall x, quad (t_num ut) M x = quad (t_num ut) M' x) by (intros x; apply quad_ext; intros; apply EM).
  assert (Sy : symmetric (t_num ut) M) by (intros u u' _ _; rewrite !EM; apply (M_sym off off (t_at ut b) (fun _ => D) Hex)).
  split; [exact EV|]. split; [exact Sy|].
  split. { intros u. rewrite EM. apply (M_diag off off (t_at ut b) (fun _ => D) Hex). }
  split. { intros u u'. split; [apply exp_pos|]. rewrite EM. apply (M_range off off (t_at ut b) (fun _ => D) Hex HD). }
  split. { intros u u' E. rewrite EV, E. f_equal. field. lra. }
  split.
  { intros u v w. rewrite !EV. assert (0 < / D) as PI by now apply Rinv_0_lt_compat. split.
    - intros L. apply exp_increasing. unfold Rdiv. rewrite <- !Ropp_mult_distr_l. apply Ropp_lt_contravar.
      now apply Rmult_lt_compat_r.
    - intros L. apply exp_lt_inv in L. unfold Rdiv in L. rewrite <- !Ropp_mult_distr_l in L. apply Ropp_lt_cancel in L.
      now apply Rmult_lt_reg_r in L. }
  split. { intros x. rewrite EQ. apply (M_psd off off (t_at ut b) (fun _ => D) Hex HD (t_num ut)). }
  assert (Hpd := M_pd_iff off off (t_at ut b) (fun _ => D) Hex HD (t_num ut)). cbv beta zeta in Hpd. fold M' in Hpd.
  split.
  - intros (L & HL) u u' Hu Hu' N. apply (proj1 Hpd); try assumption; [|reflexivity].
    intros x Hx. rewrite <- EQ. apply (cholesky_pos_def _ _ _ HL x Hx).
  - intros P. apply cholesky_exists; [exact Sy|]. intros x Hx. rewrite EQ. apply (proj2 Hpd); [|exact Hx].
    intros u u' Hu Hu' N _. now apply P.
Qed.
