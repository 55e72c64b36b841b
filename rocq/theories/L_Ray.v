(* Lemmas for one ray between two antennas (C82). *)
From Coq Require Import Nsatz.
From Coq Require Import Reals String List Bool Arith Lia Lra.
From Verif Require Import M_Base L_Base M_Params M_Geometry M_Pathloss M_Scenario M_Rays M_Antenna S_Antenna L_Antenna L_Trig M_Cplx M_Coeff
  S_Coeff S_Ray L_Rotation L_Coeff.
Import ListNotations.
Open Scope string_scope.
Open Scope list_scope.
Open Scope R_scope.

Lemma orient_rot o v : orient o v = rot_pos o v.
Proof. symmetry. apply rot_pos_comp. Qed.

Lemma orient_inj o u v : orient o u = orient o v -> u = v.
Proof. rewrite !orient_rot. intros H. rewrite <- (reverse_forward o u), H. apply reverse_forward. Qed.

(* spherical coordinates off the poles *)
Lemma rho_hat_inj t p t' p' : 0 < t < PI -> 0 < t' < PI -> - PI < p <= PI -> - PI < p' <= PI ->
  rho_hat t p = rho_hat t' p' -> t = t' /\ p = p'.
Proof.
  intros A B C D H. unfold rho_hat in H. injection H as X Y Z.
  assert (E : t = t') by (rewrite <- (acos_unique_range _ t (conj (Rlt_le _ _ (proj1 A)) (Rlt_le _ _ (proj2 A))) eq_refl), Z;
    apply acos_unique_range; [lra|reflexivity]).
  split; [exact E|]. subst t'. assert (S : 0 < sin t) by (apply sin_gt_0; lra).
  apply cos_sin_unique; [exact C|exact D| |]; apply Rmult_eq_reg_l with (sin t); lra.
Qed.

(* components of a transversal vector *)
Lemma field_vector_inj theta phi F G : field_vector F theta phi = field_vector G theta phi -> F = G.
Proof.
  intros H. destruct F as [a b], G as [c d].
  assert (A : vdot (field_vector (a, b) theta phi) (theta_hat theta phi) = a /\ vdot (field_vector (a, b) theta phi) (phi_hat theta phi) = b).
  { unfold field_vector, theta_hat, phi_hat; v3. pose proof (trig_one theta). pose proof (trig_one phi). split; nsatz. }
  assert (B : vdot (field_vector (c, d) theta phi) (theta_hat theta phi) = c /\ vdot (field_vector (c, d) theta phi) (phi_hat theta phi) = d).
  { unfold field_vector, theta_hat, phi_hat; v3. pose proof (trig_one theta). pose proof (trig_one phi). split; nsatz. }
  rewrite H in A. destruct A as [<- <-], B as [-> ->]. reflexivity.
Qed.

(* every antenna of a constructed array has exactly one element *)
Lemma element_exists j1 p a k : make_array j1 p = Ok a -> (k < pa_num_ant a)%nat -> exists e, antenna_element a k e.
Proof.
  intros H K. destruct (array_partition _ _ _ H) as ((_ & _ & _ & P) & _ & L). apply P in K. destruct K as [K|K].
  - exists (pa_pol1 a). constructor. exact K.
  - pose proof (make_array_built _ _ _ H) as B. pose proof (bt_slant2 _ _ _ _ _ _ _ _ B) as S.
    pose proof (bt_dual _ _ _ _ _ _ _ _ B) as D. rewrite D in L.
    destruct (negb (String.eqb (ar_pol p) "single")).
    + destruct S as (e & S & _). exists e. constructor 2; assumption.
    + apply length_zero_iff_nil in L. rewrite L in K. destruct K.
Qed.

Lemma element_unique j1 p a k e e' : make_array j1 p = Ok a -> antenna_element a k e -> antenna_element a k e' -> e = e'.
Proof.
  intros H A B. destruct (array_partition _ _ _ H) as ((_ & _ & D & _) & _).
  destruct A as [A|e A A'], B as [B|e' B B'].
  - reflexivity.
  - destruct (D k); auto.
  - destruct (D k); auto.
  - congruence.
Qed.

Lemma off_axis_local o theta phi theta' phi' : gcs_to_lcs o theta phi = (theta', phi') ->
  (off_axis o theta phi <-> 0 < theta' < PI).
Proof.
  intros G. destruct (C36_local_angles_l _ _ _ _ _ G) as (E & B & _).
  rewrite <- orient_rot in E. unfold off_axis. rewrite <- E. split.
  - intros [N P]. destruct (Req_dec theta' 0) as [->|N0].
    + exfalso. apply N. f_equal. unfold rho_hat. rewrite sin_0, cos_0. f_equal; ring.
    + destruct (Req_dec theta' PI) as [->|NP]; [|lra].
      exfalso. apply P. f_equal. unfold rho_hat. rewrite sin_PI, cos_PI. f_equal; ring.
  - intros T. assert (S : 0 < sin theta') by (apply sin_gt_0; lra). pose proof (trig_one theta').
    split; intros X; apply orient_inj in X; unfold rho_hat in X; injection X as X Y Z; rewrite Z in H; nra.
Qed.

(* the field computed by the code *)
Lemma antenna_radiates j1 p a k o theta phi : make_array j1 p = Ok a -> (k < pa_num_ant a)%nat -> off_axis o theta phi ->
  radiates a k o theta phi (antenna_field a o theta phi k).
Proof.
  intros H K O. destruct (gcs_to_lcs o theta phi) as [theta' phi'] eqn:G.
  destruct (C36_local_angles_l _ _ _ _ _ G) as (E & B & B'). pose proof (proj1 (off_axis_local _ _ _ _ _ G) O) as B0.
  destruct (element_exists _ _ _ _ H K) as [e A].
  assert (S : sin theta' <> 0) by (apply Rgt_not_eq, sin_gt_0; lra).
  exists e, theta', phi'. split; [exact A|]. split; [lra|]. split; [lra|]. split; [rewrite orient_rot; exact E|].
  assert (F : antenna_field a o theta phi k = l2g_response (field e theta' phi') o theta phi).
  { unfold antenna_field. rewrite G.
    destruct (array_partition _ _ _ H) as ((_ & _ & D & _) & _).
    destruct A as [A|e A A'].
    - destruct (pa_pol2 a); [|reflexivity].
      destruct (existsb (Nat.eqb k) (pa_ind2 a)) eqn:X; [|reflexivity].
      apply existsb_exists in X. destruct X as (k' & X & Y). apply Nat.eqb_eq in Y. subst k'. destruct (D k); auto.
    - rewrite A'. assert (X : existsb (Nat.eqb k) (pa_ind2 a) = true)
        by (apply existsb_exists; exists k; split; [exact A|apply Nat.eqb_refl]).
      rewrite X. reflexivity. }
  rewrite F, orient_rot. apply C65_l; assumption.
Qed.

Lemma radiates_unique j1 p a k o theta phi F G : make_array j1 p = Ok a ->
  radiates a k o theta phi F -> radiates a k o theta phi G -> F = G.
Proof.
  intros H (e & t & q & A & T & Q & E & V) (e' & t' & q' & A' & T' & Q' & E' & V').
  pose proof (element_unique _ _ _ _ _ _ H A A') as <-.
  rewrite <- E' in E. apply orient_inj in E. destruct (rho_hat_inj _ _ _ _ T T' Q Q' E) as [<- <-].
  apply field_vector_inj with theta phi. congruence.
Qed.

Lemma radiates_off_axis a k o theta phi F : radiates a k o theta phi F -> off_axis o theta phi.
Proof.
  intros (e & t & q & _ & T & _ & E & _). unfold off_axis. rewrite <- E.
  assert (S : 0 < sin t) by (apply sin_gt_0; lra). pose proof (trig_one t).
  split; intros X; apply orient_inj in X; unfold rho_hat in X; injection X as X Y Z; rewrite Z in H; nra.
Qed.

Lemma C82_field_l : forall j1 p a k o theta phi,
  make_array j1 p = Ok a -> (k < pa_num_ant a)%nat ->
  (off_axis o theta phi <-> exists F, radiates a k o theta phi F) /\
  (forall F G, radiates a k o theta phi F -> radiates a k o theta phi G -> F = G).
Proof.
  intros j1 p a k o theta phi H K. split.
  - split; [|intros [F X]; exact (radiates_off_axis _ _ _ _ _ _ X)].
    intros O. eexists. apply (antenna_radiates _ _ _ _ _ _ _ H K O).
  - intros F G. apply (radiates_unique _ _ _ _ _ _ _ _ _ H).
Qed.

(* ---- the ray formulas ---- *)
Lemma ionosphere_det fc h F F' : through_ionosphere fc h F F' ->
  F' = if Rleb 600000 h then turned (108 / sq (fc / 1e9) / 180 * PI) F else F.
Proof.
  intros [A B]. destruct (Rleb 600000 h) eqn:E.
  - rewrite A by (apply Rleb_true; exact E). f_equal. unfold sq, Rdiv. ring.
  - apply B. apply Rleb_false. exact E.
Qed.

Lemma shift_det g T zoa aoa zod aod f : 0 < cg_fc g -> shift g T zoa aoa zod aod f -> f = ray_frequency g T aoa zoa aod zod.
Proof.
  intros P (v & w & -> & V1 & V2 & W1 & W2). unfold ray_frequency, cg_lambda, speed_of_light.
  change (unit_sphere_vector zoa aoa) with (rho_hat zoa aoa). change (unit_sphere_vector zod aod) with (rho_hat zod aod).
  assert (V : v = vdot (if lt_moving_rx T then rho_hat zoa aoa else rho_hat zod aod) (lt_vel T))
    by (destruct (lt_moving_rx T); auto).
  assert (W : (if Rleb 600000 (lt_bs_height T) && lt_doppler T then lt_sat_speed T / (299792458 / cg_fc g) else 0) = w / (299792458 / cg_fc g)).
  { destruct (Rleb 600000 (lt_bs_height T)) eqn:E; [|rewrite W2 by (left; apply Rleb_false; exact E); cbn; unfold Rdiv; ring].
    destruct (lt_doppler T); [rewrite W1 by (try (apply Rleb_true; exact E); reflexivity); reflexivity|].
    rewrite W2 by (right; reflexivity). cbn. unfold Rdiv; ring. }
  rewrite W, <- V. unfold Rdiv. ring.
Qed.

Lemma steering_offset g T aoa aod zoa zod u s : array_offset g T aoa aod zoa zod u s =
  cmul (steering (cg_fc g) (lt_rx_ori T) (pa_pos (cg_rx g) u) zoa aoa) (steering (cg_fc g) (lt_tx_ori T) (pa_pos (cg_tx g) s) zod aod).
Proof.
  unfold array_offset, steering, cg_lambda. cbv zeta. rewrite !orient_rot.
  change (unit_sphere_vector zoa aoa) with (rho_hat zoa aoa). change (unit_sphere_vector zod aod) with (rho_hat zod aod).
  change speed_of_light with 299792458. f_equal; f_equal; unfold Rdiv; ring.
Qed.

Lemma entry_polarised g T m zoa aoa zod aod u s F' :
  through_ionosphere (cg_fc g) (lt_bs_height T) (antenna_field (cg_tx g) (lt_tx_ori T) zod aod s) F' ->
  field_entry g T aoa aod zoa zod (with_faraday g T m) u s =
  polarised (antenna_field (cg_rx g) (lt_rx_ori T) zoa aoa u) (m00 m) (m01 m) (m10 m) (m11 m) F'.
Proof.
  intros I. apply ionosphere_det in I. subst F'. rewrite field_entry_faraday. cbv zeta. unfold cvec_of, polarised.
  destruct (antenna_field (cg_tx g) (lt_tx_ori T) zod aod s) as [x1 x2]. cbn [fst snd].
  destruct (Rleb 600000 (lt_bs_height T)); unfold cmat_vec; cbn [v0 v1 m00 m01 m10 m11 fst snd]; [|reflexivity].
  unfold turned, faraday_rotation, faraday_angle. cbv zeta. unfold cmat_vec. cbn [m00 m01 m10 m11 v0 v1 fst snd].
  replace (108 / (cg_fc g / 1e9 * (cg_fc g / 1e9)) * (PI / 180)) with (108 / sq (cg_fc g / 1e9) / 180 * PI) by (unfold sq, Rdiv; ring).
  set (a := 108 / sq (cg_fc g / 1e9) / 180 * PI).
  assert (E1 : creal (cos a * x1 - sin a * x2) = cadd (cmul (creal (cos a)) (creal x1)) (cmul (creal (- sin a)) (creal x2)))
    by (apply cplx_eq; cbn; ring).
  assert (E2 : creal (sin a * x1 + cos a * x2) = cadd (cmul (creal (sin a)) (creal x1)) (cmul (creal (cos a)) (creal x2)))
    by (apply cplx_eq; cbn; ring).
  rewrite E1, E2. reflexivity.
Qed.

Lemma C82_scattered_l : forall j1 prx ptx g T y time ph c r u s t Frx Ftx Ftx' f,
  make_array j1 prx = Ok (cg_rx g) -> make_array j1 ptx = Ok (cg_tx g) ->
  (u < pa_num_ant (cg_rx g))%nat -> (s < pa_num_ant (cg_tx g))%nat -> 0 < cg_fc g ->
  let zoa := r_zoa y c r in let aoa := r_aoa y c r in let zod := r_zod y c r in let aod := r_aod y c r in
  radiates (cg_rx g) u (lt_rx_ori T) zoa aoa Frx -> radiates (cg_tx g) s (lt_tx_ori T) zod aod Ftx ->
  through_ionosphere (cg_fc g) (lt_bs_height T) Ftx Ftx' -> shift g T zoa aoa zod aod f ->
  let cross_phase k := cmul (creal (sqrt (1 / r_xpr y c r))) (cexpi (ph c r k)) in
  nlos_ray g T y time ph c r u s t =
    cmul (creal (sqrt (nth c (r_powers y) 0 / 20)))
   (cmul (polarised Frx (cexpi (ph c r 0%nat)) (cross_phase 1%nat) (cross_phase 2%nat) (cexpi (ph c r 3%nat)) Ftx')
   (cmul (steering (cg_fc g) (lt_rx_ori T) (pa_pos (cg_rx g) u) zoa aoa)
   (cmul (steering (cg_fc g) (lt_tx_ori T) (pa_pos (cg_tx g) s) zod aod)
         (cexpi (2 * PI * f * time t))))).
Proof.
  intros j1 prx ptx g T y time ph c r u s t Frx Ftx Ftx' f Hr Ht U S FC. cbv zeta. intros Rr Rt I SH.
  pose proof (antenna_radiates _ _ _ _ _ _ _ Hr U (radiates_off_axis _ _ _ _ _ _ Rr)) as Rr'.
  pose proof (antenna_radiates _ _ _ _ _ _ _ Ht S (radiates_off_axis _ _ _ _ _ _ Rt)) as Rt'.
  pose proof (radiates_unique _ _ _ _ _ _ _ _ _ Hr Rr Rr') as ->. pose proof (radiates_unique _ _ _ _ _ _ _ _ _ Ht Rt Rt') as ->.
  apply shift_det in SH; [|exact FC]. subst f.
  unfold nlos_ray. cbv zeta. rewrite (entry_polarised _ _ _ _ _ _ _ _ _ _ I), steering_offset, doppler_frequency.
  unfold phase_matrix. cbn [m00 m01 m10 m11].
  replace (INR rays_per_cluster) with 20 by (unfold rays_per_cluster; rewrite INR_IZR_INZ; reflexivity). ring.
Qed.

Lemma C82_direct_l : forall j1 prx ptx g T time u s t Frx Ftx Ftx' f,
  make_array j1 prx = Ok (cg_rx g) -> make_array j1 ptx = Ok (cg_tx g) ->
  (u < pa_num_ant (cg_rx g))%nat -> (s < pa_num_ant (cg_tx g))%nat -> 0 < cg_fc g ->
  radiates (cg_rx g) u (lt_rx_ori T) (lt_zoa T) (lt_aoa T) Frx -> radiates (cg_tx g) s (lt_tx_ori T) (lt_zod T) (lt_aod T) Ftx ->
  through_ionosphere (cg_fc g) (lt_bs_height T) Ftx Ftx' -> shift g T (lt_zoa T) (lt_aoa T) (lt_zod T) (lt_aod T) f ->
  los_ray g T time u s t =
    cmul (creal (fst Frx * fst Ftx' - snd Frx * snd Ftx'))
   (cmul (steering (cg_fc g) (lt_rx_ori T) (pa_pos (cg_rx g) u) (lt_zoa T) (lt_aoa T))
   (cmul (steering (cg_fc g) (lt_tx_ori T) (pa_pos (cg_tx g) s) (lt_zod T) (lt_aod T))
   (cmul (cexpi (2 * PI * f * time t))
         (cexpi (2 * PI * (lt_d3d T / (299792458 / cg_fc g))))))).
Proof.
  intros j1 prx ptx g T time u s t Frx Ftx Ftx' f Hr Ht U S FC Rr Rt I SH.
  pose proof (antenna_radiates _ _ _ _ _ _ _ Hr U (radiates_off_axis _ _ _ _ _ _ Rr)) as Rr'.
  pose proof (antenna_radiates _ _ _ _ _ _ _ Ht S (radiates_off_axis _ _ _ _ _ _ Rt)) as Rt'.
  pose proof (radiates_unique _ _ _ _ _ _ _ _ _ Hr Rr Rr') as ->. pose proof (radiates_unique _ _ _ _ _ _ _ _ _ Ht Rt Rt') as ->.
  apply shift_det in SH; [|exact FC]. subst f.
  unfold los_ray. cbv zeta. rewrite (entry_polarised _ _ _ _ _ _ _ _ _ _ I), steering_offset, doppler_frequency.
  cbn [m00 m01 m10 m11].
  replace (2 * PI * lt_d3d T / cg_lambda g) with (2 * PI * (lt_d3d T / (299792458 / cg_fc g)))
    by (unfold cg_lambda, speed_of_light, Rdiv; ring).
  unfold polarised. set (A := antenna_field _ _ _ _ _).
  assert (E : creal (fst A * fst Ftx' - snd A * snd Ftx') =
    cadd (cmul (creal (fst A)) (cadd (cmul c1 (creal (fst Ftx'))) (cmul c0 (creal (snd Ftx')))))
         (cmul (creal (snd A)) (cadd (cmul c0 (creal (fst Ftx'))) (cmul (creal (- (1))) (creal (snd Ftx'))))))
    by (apply cplx_eq; cbn; ring).
  rewrite E. ring.
Qed.

(* a crossed pair of isotropic elements, looking along x: the two antennas send the two diagonal fields *)
Lemma crossed_pair j1 fc : exists a, make_antenna j1 "dual" "cross" "omni" fc = Ok a /\ pa_num_ant a = 2%nat /\
  radiates a 0 (V3 0 0 0) (PI / 2) 0 (cos (PI / 4), - sin (PI / 4)) /\
  radiates a 1 (V3 0 0 0) (PI / 2) 0 (cos (PI / 4), sin (PI / 4)).
Proof.
  unfold make_antenna, make_array.
  cbn [ar_rows_pp ar_cols_pp ar_pol ar_type ar_pattern ar_fc ar_rows ar_cols ar_panel_v ar_panel_h ar_elem_v ar_elem_h default].
  change (String.eqb "dual" "single") with false. change (String.eqb "dual" "dual") with true.
  change (String.eqb "cross" "VH") with false. change (String.eqb "cross" "cross") with true. change (String.eqb "dual" "VH") with false.
  cbn [orb negb]. assert (L : Rltb ((INR 1 - 1) * 0.5) ((INR 1 - 1) * 0.5 + 0.5) = true) by (apply Rltb_true; lra).
  rewrite L. cbn [negb]. unfold make_element. change (String.eqb "omni" "omni") with true. cbn [bind Nat.mul Nat.add Nat.eqb fst snd].
  eexists. split; [reflexivity|]. split; [reflexivity|].
  pose proof PI_RGT_0.
  assert (O : forall v, orient (V3 0 0 0) v = v).
  { intros [x y z]. unfold orient, rot_z, rot_y, rot_x. cbn [vx vy vz]. rewrite cos_0, sin_0. f_equal; ring. }
  split.
  - eexists. exists (PI / 2), 0. split; [apply first_polarisation; cbn; auto|]. rewrite !O. split; [lra|]. split; [lra|].
    split; [reflexivity|]. cbn [pa_pol1]. unfold field, pattern_omni. cbn [el_pattern el_slant]. rewrite sqrt_1, !Rmult_1_l.
    replace (- PI / 4) with (- (PI / 4)) by lra. rewrite cos_neg, sin_neg. reflexivity.
  - eexists. exists (PI / 2), 0. split; [eapply second_polarisation; [cbn; auto|reflexivity]|]. rewrite !O. split; [lra|]. split; [lra|].
    split; [reflexivity|]. unfold field, pattern_omni. cbn [el_pattern el_slant]. rewrite sqrt_1, !Rmult_1_l.
    replace (- PI / 4 + PI / 2) with (PI / 4) by lra. reflexivity.
Qed.
