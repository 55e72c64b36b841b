(* Reciprocity above 600 km (C66): the direct ray keeps it, scattered rays do not. *)
From Coq Require Import Reals String List Bool Arith Lia Lra.
From Verif Require Import M_Base L_Base M_Params M_Geometry M_Pathloss M_Scenario M_Rays M_Antenna L_Trig M_Cplx M_Coeff S_Coeff
  L_Rotation L_Coeff.
Import ListNotations.
Open Scope R_scope.

(* diag(1, -1) times a rotation is symmetric *)
Lemma los_matrix_swap g T : with_faraday (swap_gen g) (swap_topo T) (CM c1 c0 c0 (creal (- (1)))) =
  with_faraday g T (CM c1 c0 c0 (creal (- (1)))) /\
  m01 (with_faraday g T (CM c1 c0 c0 (creal (- (1))))) = m10 (with_faraday g T (CM c1 c0 c0 (creal (- (1))))).
Proof.
  split; [reflexivity|]. unfold with_faraday. destruct (Rleb 600000 (lt_bs_height T)); [| reflexivity].
  unfold cmat_mul, faraday_rotation. cbn. unfold cadd, cmul, creal, c0, c1. cbn. f_equal; ring.
Qed.

Lemma los_reciprocal g T time u s t :
  los_ray (swap_gen g) (swap_topo T) time s u t = los_ray g T time u s t.
Proof.
  unfold los_ray. cbv zeta. destruct (los_matrix_swap g T) as [-> S].
  change (lt_aoa (swap_topo T)) with (lt_aod T). change (lt_aod (swap_topo T)) with (lt_aoa T).
  change (lt_zoa (swap_topo T)) with (lt_zod T). change (lt_zod (swap_topo T)) with (lt_zoa T).
  change (lt_d3d (swap_topo T)) with (lt_d3d T). change (cg_lambda (swap_gen g)) with (cg_lambda g).
  rewrite !doppler_swap, !array_swap.
  destruct (with_faraday g T (CM c1 c0 c0 (creal (- (1))))) as [a b c d]. cbn in S. subst c.
  rewrite !field_swap. reflexivity.
Qed.

(* one ray of the example link, with the two cross-polar phases 0 and pi *)
Definition cross_phases (_ _ k : nat) : R := if Nat.eqb k 2 then PI else 0.

Lemma nlos_not_reciprocal : exists g T y time ph c r u s t,
  600000 <= lt_bs_height T /\
  nlos_ray (swap_gen g) (swap_topo T) (swap_rays y) time (swap_phases ph) c r s u t <> nlos_ray g T y time ph c r u s t.
Proof.
  exists ex_gen, ex_topo, ex_rays, (fun _ => 0), cross_phases, 0%nat, 0%nat, 0%nat, 0%nat, 0%nat.
  split; [cbn; lra|]. unfold nlos_ray. cbv zeta.
  change (r_aoa (swap_rays ex_rays)) with (r_aod ex_rays). change (r_aod (swap_rays ex_rays)) with (r_aoa ex_rays).
  change (r_zoa (swap_rays ex_rays)) with (r_zod ex_rays). change (r_zod (swap_rays ex_rays)) with (r_zoa ex_rays).
  change (r_powers (swap_rays ex_rays)) with (r_powers ex_rays).
  rewrite !doppler_swap, !array_swap. assert (AS : forall x y z w, cmul (cmul (cmul x y) z) w = cmul x (cmul (cmul y z) w)) by (intros; ring).
  rewrite !AS.
  set (k := cmul (cmul (array_offset _ _ _ _ _ _ _ _) _) _).
  assert (K : cnorm2 k <> 0).
  { unfold k. rewrite !cnorm2_mul. unfold array_offset, doppler. rewrite cnorm2_mul, !cexpi_norm.
    unfold cnorm2, creal. cbn [re im]. cbn [ex_rays r_powers nth].
    assert (S : 0 < sqrt (0.2 / INR rays_per_cluster)) by (apply sqrt_lt_R0; unfold rays_per_cluster; cbn [INR]; lra). nra. }
  clearbody k.
  unfold with_faraday. change (lt_bs_height (swap_topo ex_topo)) with (lt_bs_height ex_topo).
  change (lt_bs_height ex_topo) with 600000. rewrite (proj2 (Rleb_true 600000 600000)) by lra.
  unfold field_entry, cvec_of. cbn [r_aoa r_aod r_zoa r_zod ex_rays swap_gen swap_topo ex_gen ex_topo cg_tx cg_rx cg_fc lt_tx_ori lt_rx_ori].
  rewrite !ex_field. set (a := faraday_angle 2e9).
  assert (C : 0 < sin a).
  { assert (Ea : a = 27 / 180 * PI) by (unfold a, faraday_angle; lra). rewrite Ea. pose proof PI_RGT_0. apply sin_gt_0; lra. }
  assert (S : 0 < sqrt (1 / 10)) by (apply sqrt_lt_R0; lra).
  intros H. destruct k as [kr ki]. unfold cnorm2 in K. cbn [re im] in K.
  unfold phase_matrix, swap_phases, cross_phases, faraday_rotation in H. fold a in H.
  cbn in H. unfold cmul, cadd, creal, cexpi in H. cbn in H. rewrite cos_PI, sin_PI, cos_0, sin_0 in H.
  injection H as A B. clearbody a. set (q := sqrt (1 / 10)) in *. clearbody q.
  assert (P : 0 < q * sin a) by (apply Rmult_lt_0_compat; assumption).
  assert (kr = 0) by nra. assert (ki = 0) by nra. subst. apply K. ring.
Qed.
