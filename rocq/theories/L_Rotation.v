From Coq Require Import Reals List Bool Arith Lra Lia Nsatz.
From Verif Require Import M_Base L_Base M_Antenna M_Cplx M_Coeff S_Coeff L_Trig.
Import ListNotations.
Open Scope R_scope.

Lemma trig_one x : cos x * cos x + sin x * sin x = 1.
Proof. pose proof (sin2_cos2 x) as H. unfold Rsqr in H. lra. Qed.

Lemma vec3_eq a b : vx a = vx b -> vy a = vy b -> vz a = vz b -> a = b.
Proof. destruct a, b; cbn; intros -> -> ->; reflexivity. Qed.

Ltac v3 := unfold vadd, vscale, vdot, cross, vsub in *; cbn [vx vy vz] in *.

Lemma rotation_comp f g : is_rotation f -> is_rotation g -> is_rotation (fun v => f (g v)).
Proof.
  intros F G. constructor.
  - intros. rewrite (ir_add _ G), (ir_add _ F). reflexivity.
  - intros. rewrite (ir_scale _ G), (ir_scale _ F). reflexivity.
  - intros. rewrite (ir_dot _ F), (ir_dot _ G). reflexivity.
  - intros. rewrite (ir_cross _ G), (ir_cross _ F). reflexivity.
  - destruct (ir_onto _ F) as (f' & A & B). destruct (ir_onto _ G) as (g' & C & D).
    exists (fun v => g' (f' v)). split; intros v; [rewrite C, A|rewrite B, D]; reflexivity.
Qed.

Lemma rotation_ext f g : (forall v, f v = g v) -> is_rotation f -> is_rotation g.
Proof.
  intros E F. constructor.
  - intros. rewrite <- !E. apply F.
  - intros. rewrite <- !E. apply F.
  - intros. rewrite <- !E. apply F.
  - intros. rewrite <- !E. apply F.
  - destruct (ir_onto _ F) as (h & A & B). exists h. split; intros; rewrite <- E; auto.
Qed.

Lemma rot_z_rotation a : is_rotation (rot_z a).
Proof.
  pose proof (trig_one a) as T. constructor.
  - intros; apply vec3_eq; unfold rot_z; v3; ring.
  - intros; apply vec3_eq; unfold rot_z; v3; ring.
  - intros; unfold rot_z; v3; nsatz.
  - intros; apply vec3_eq; unfold rot_z; v3; nsatz.
  - exists (rot_z (- a)). split; intros v; apply vec3_eq; unfold rot_z; cbn [vx vy vz]; rewrite ?cos_neg, ?sin_neg; nsatz.
Qed.

Lemma rot_y_rotation a : is_rotation (rot_y a).
Proof.
  pose proof (trig_one a) as T. constructor.
  - intros; apply vec3_eq; unfold rot_y; v3; ring.
  - intros; apply vec3_eq; unfold rot_y; v3; ring.
  - intros; unfold rot_y; v3; nsatz.
  - intros; apply vec3_eq; unfold rot_y; v3; nsatz.
  - exists (rot_y (- a)). split; intros v; apply vec3_eq; unfold rot_y; cbn [vx vy vz]; rewrite ?cos_neg, ?sin_neg; nsatz.
Qed.

Lemma rot_x_rotation a : is_rotation (rot_x a).
Proof.
  pose proof (trig_one a) as T. constructor.
  - intros; apply vec3_eq; unfold rot_x; v3; ring.
  - intros; apply vec3_eq; unfold rot_x; v3; ring.
  - intros; unfold rot_x; v3; nsatz.
  - intros; apply vec3_eq; unfold rot_x; v3; nsatz.
  - exists (rot_x (- a)). split; intros v; apply vec3_eq; unfold rot_x; cbn [vx vy vz]; rewrite ?cos_neg, ?sin_neg; nsatz.
Qed.

Lemma rot_pos_comp o v : rot_pos o v = rot_z (vx o) (rot_y (vy o) (rot_x (vz o) v)).
Proof. apply vec3_eq; unfold rot_pos, mat3_vec, forward_rotation_matrix, rot_z, rot_y, rot_x; v3; cbn [row1 row2 row3 vx vy vz]; ring. Qed.

Lemma rot_pos_rotation o : is_rotation (rot_pos o).
Proof.
  apply (rotation_ext (fun v => rot_z (vx o) (rot_y (vy o) (rot_x (vz o) v)))).
  - intros v. symmetry. apply rot_pos_comp.
  - apply (rotation_comp (rot_z (vx o)) (fun v => rot_y (vy o) (rot_x (vz o) v))); [apply rot_z_rotation|].
    apply rotation_comp; [apply rot_y_rotation|apply rot_x_rotation].
Qed.

Lemma vdot_ext a b : (forall v, vdot a v = vdot b v) -> a = b.
Proof.
  intros H. pose proof (H (V3 1 0 0)) as X. pose proof (H (V3 0 1 0)) as Y. pose proof (H (V3 0 0 1)) as Z. v3.
  apply vec3_eq; lra.
Qed.

Lemma transpose_dot m u v : vdot (mat3_vec (mat3_transpose m) u) v = vdot u (mat3_vec m v).
Proof. destruct m as [[p1 p2 p3] [q1 q2 q3] [r1 r2 r3]]. unfold mat3_vec, mat3_transpose; v3. cbn [row1 row2 row3 vx vy vz]. ring. Qed.

Lemma reverse_forward o v : mat3_vec (reverse_rotation_matrix o) (rot_pos o v) = v.
Proof.
  apply vdot_ext. intros w. unfold reverse_rotation_matrix. rewrite transpose_dot.
  exact (ir_dot _ (rot_pos_rotation o) v w).
Qed.

Lemma forward_reverse o v : rot_pos o (mat3_vec (reverse_rotation_matrix o) v) = v.
Proof.
  destruct (ir_onto _ (rot_pos_rotation o)) as (g & A & B).
  rewrite <- (A v) at 1. rewrite reverse_forward. apply A.
Qed.

Lemma usv_norm theta phi : vdot (unit_sphere_vector theta phi) (unit_sphere_vector theta phi) = 1.
Proof.
  pose proof (trig_one theta). pose proof (trig_one phi). unfold unit_sphere_vector; v3. nsatz.
Qed.

Lemma sphere_decompose v : vdot v v = 1 ->
  unit_sphere_vector (acos (Rmin (Rmax (vz v) (- (1))) 1)) (atan2 (vy v) (vx v)) = v.
Proof.
  intros N. assert (B : -1 <= vz v <= 1).
  { v3. assert (vz v * vz v <= 1) by nra. split; nra. }
  rewrite Rmax_left by lra. rewrite Rmin_left by lra.
  assert (S : sin (acos (vz v)) = sqrt (vx v * vx v + vy v * vy v)).
  { rewrite sin_acos by exact B. f_equal. unfold Rsqr. v3. lra. }
  destruct (atan2_polar (vy v) (vx v)) as [X Y].
  apply vec3_eq; unfold unit_sphere_vector; cbn [vx vy vz].
  - rewrite S. exact X.
  - rewrite S. exact Y.
  - apply cos_acos. exact B.
Qed.

Lemma C36_rotation_l o : is_rotation (rot_pos o) /\
  (forall v, rot_pos o v = rot_z (vx o) (rot_y (vy o) (rot_x (vz o) v))) /\
  (forall v, mat3_vec (reverse_rotation_matrix o) (rot_pos o v) = v) /\
  (forall v, rot_pos o (mat3_vec (reverse_rotation_matrix o) v) = v).
Proof.
  split; [apply rot_pos_rotation|]. split; [apply rot_pos_comp|]. split; [apply reverse_forward|apply forward_reverse].
Qed.

Lemma C36_local_angles_l o theta phi theta' phi' : gcs_to_lcs o theta phi = (theta', phi') ->
  rot_pos o (rho_hat theta' phi') = rho_hat theta phi /\ 0 <= theta' <= PI /\ - PI < phi' <= PI.
Proof.
  unfold gcs_to_lcs. cbv zeta. set (v := mat3_vec _ _). intros [= <- <-].
  assert (Z : vdot (V3 0 0 1) v = vz v) by (v3; ring). rewrite Z.
  assert (RV : rot_pos o v = unit_sphere_vector theta phi) by (unfold v; apply forward_reverse).
  assert (N : vdot v v = 1) by (rewrite <- (ir_dot _ (rot_pos_rotation o)), RV; apply usv_norm).
  split; [|split; [apply acos_bound|apply atan2_range]].
  change (rot_pos o (unit_sphere_vector (acos (Rmin (Rmax (vz v) (- (1))) 1)) (atan2 (vy v) (vx v))) = unit_sphere_vector theta phi).
  rewrite sphere_decompose by exact N. exact RV.
Qed.

(* ---- fields ---- *)
Lemma C37_l f o theta phi :
  fst (l2g_response f o theta phi) * fst (l2g_response f o theta phi) +
  snd (l2g_response f o theta phi) * snd (l2g_response f o theta phi) = fst f * fst f + snd f * snd f.
Proof.
  unfold l2g_response. cbv zeta. cbn [fst snd]. pose proof (trig_one (compute_psi o theta phi)). nsatz.
Qed.

Lemma basis_decompose theta phi v :
  v = vadd (vscale (vdot v (rho_hat theta phi)) (rho_hat theta phi))
        (vadd (vscale (vdot v (theta_hat theta phi)) (theta_hat theta phi))
              (vscale (vdot v (phi_hat theta phi)) (phi_hat theta phi))).
Proof.
  pose proof (trig_one theta). pose proof (trig_one phi).
  apply vec3_eq; unfold rho_hat, theta_hat, phi_hat; v3; nsatz.
Qed.

Lemma psi_parts o theta phi :
  psi_real o theta phi = - vdot (rot_pos o (V3 0 0 1)) (theta_hat theta phi) /\
  psi_imag o theta phi = - vdot (rot_pos o (V3 0 0 1)) (phi_hat theta phi).
Proof.
  unfold psi_real, psi_imag, rot_pos, mat3_vec, forward_rotation_matrix, theta_hat, phi_hat. v3.
  cbn [row1 row2 row3 vx vy vz]. rewrite sin_minus, cos_minus. split; ring.
Qed.

Lemma theta_hat_norm theta phi : vdot (theta_hat theta phi) (theta_hat theta phi) = 1.
Proof. pose proof (trig_one theta). pose proof (trig_one phi). unfold theta_hat; v3; nsatz. Qed.

Lemma tangent_norm theta phi a b :
  let w := vadd (vscale a (theta_hat theta phi)) (vscale b (phi_hat theta phi)) in vdot w w = a * a + b * b.
Proof. cbv zeta. pose proof (trig_one theta). pose proof (trig_one phi). unfold theta_hat, phi_hat; v3; nsatz. Qed.

Lemma z_decompose theta phi :
  V3 0 0 1 = vadd (vscale (cos theta) (rho_hat theta phi)) (vscale (- sin theta) (theta_hat theta phi)).
Proof. pose proof (trig_one theta). apply vec3_eq; unfold rho_hat, theta_hat; v3; nsatz. Qed.

Lemma phi_hat_cross theta phi : phi_hat theta phi = cross (rho_hat theta phi) (theta_hat theta phi).
Proof. pose proof (trig_one theta). apply vec3_eq; unfold rho_hat, theta_hat, phi_hat; v3; nsatz. Qed.

Lemma cross_tangent theta phi a b :
  cross (rho_hat theta phi) (vadd (vscale a (theta_hat theta phi)) (vscale b (phi_hat theta phi))) =
  vadd (vscale (- b) (theta_hat theta phi)) (vscale a (phi_hat theta phi)).
Proof. pose proof (trig_one theta). pose proof (trig_one phi). apply vec3_eq; unfold rho_hat, theta_hat, phi_hat; v3; nsatz. Qed.

Lemma vscale_norm k v : vdot (vscale k v) (vscale k v) = k * k * vdot v v.
Proof. v3. ring. Qed.

Lemma C65_l o theta phi theta' phi' f : gcs_to_lcs o theta phi = (theta', phi') -> sin theta' <> 0 ->
  field_vector (l2g_response f o theta phi) theta phi = rot_pos o (field_vector f theta' phi').
Proof.
  intros G NZ. destruct (C36_local_angles_l o theta phi theta' phi' G) as (Rr & R1 & _).
  pose proof (rot_pos_rotation o) as RR.
  assert (SP : 0 < sin theta') by (pose proof (sin_ge_0 theta' (proj1 R1) (proj2 R1)); lra).
  set (z := rot_pos o (V3 0 0 1)).
  destruct (psi_parts o theta phi) as [Pr Pi]. fold z in Pr, Pi.
  pose proof (trig_one theta') as T1. pose proof (trig_one phi') as T2.
  assert (Zr : vdot z (rho_hat theta phi) = cos theta').
  { unfold z. rewrite <- Rr, (ir_dot _ RR). unfold rho_hat; v3. ring. }
  (* sin theta' R theta_hat' = cos theta' rho - z *)
  assert (E : vscale (sin theta') (rot_pos o (theta_hat theta' phi')) =
     vadd (vscale (psi_real o theta phi) (theta_hat theta phi)) (vscale (psi_imag o theta phi) (phi_hat theta phi))).
  { assert (A : V3 0 0 1 = vadd (vscale (cos theta') (rho_hat theta' phi')) (vscale (- sin theta') (theta_hat theta' phi'))).
    { apply z_decompose. }
    assert (B : z = vadd (vscale (cos theta') (rho_hat theta phi)) (vscale (- sin theta') (rot_pos o (theta_hat theta' phi')))).
    { unfold z. rewrite A at 1. rewrite (ir_add _ RR), !(ir_scale _ RR), Rr. reflexivity. }
    pose proof (basis_decompose theta phi z) as D. rewrite Zr in D. rewrite Pr, Pi.
    set (w := rot_pos o (theta_hat theta' phi')) in *.
    set (k1 := vdot z (theta_hat theta phi)) in *. set (k2 := vdot z (phi_hat theta phi)) in *.
    rewrite B in D at 1. clearbody k1 k2 w.
    apply vec3_eq.
    - apply (f_equal vx) in D. v3. lra.
    - apply (f_equal vy) in D. v3. lra.
    - apply (f_equal vz) in D. v3. lra. }
  assert (N : psi_real o theta phi * psi_real o theta phi + psi_imag o theta phi * psi_imag o theta phi = sin theta' * sin theta').
  { assert (X : vdot (vscale (sin theta') (rot_pos o (theta_hat theta' phi'))) (vscale (sin theta') (rot_pos o (theta_hat theta' phi'))) = sin theta' * sin theta').
    { rewrite <- (ir_scale _ RR), (ir_dot _ RR), vscale_norm, theta_hat_norm. ring. }
    rewrite E in X. rewrite <- X. symmetry. apply tangent_norm. }
  destruct (atan2_polar (psi_imag o theta phi) (psi_real o theta phi)) as [X Y].
  rewrite N, sqrt_square in X, Y by lra.
  fold (compute_psi o theta phi) in X, Y. set (psi := compute_psi o theta phi) in *.
  assert (TT : rot_pos o (theta_hat theta' phi') = vadd (vscale (cos psi) (theta_hat theta phi)) (vscale (sin psi) (phi_hat theta phi))).
  { rewrite <- X, <- Y in E.
    set (w := rot_pos o (theta_hat theta' phi')) in *. clearbody w.
    apply vec3_eq; apply (Rmult_eq_reg_l (sin theta')); try lra.
    - apply (f_equal vx) in E. v3. lra.
    - apply (f_equal vy) in E. v3. lra.
    - apply (f_equal vz) in E. v3. lra. }
  assert (PP : rot_pos o (phi_hat theta' phi') = vadd (vscale (- sin psi) (theta_hat theta phi)) (vscale (cos psi) (phi_hat theta phi))).
  { assert (A : phi_hat theta' phi' = cross (rho_hat theta' phi') (theta_hat theta' phi')).
    { apply phi_hat_cross. }
    rewrite A, (ir_cross _ RR), Rr, TT. apply cross_tangent. }
  unfold field_vector. rewrite (ir_add _ RR), !(ir_scale _ RR), TT, PP.
  unfold l2g_response. fold psi. cbn [fst snd]. apply vec3_eq; v3; ring.
Qed.
