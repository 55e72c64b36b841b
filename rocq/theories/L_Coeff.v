From Coq Require Import Reals String List Bool Arith ZArith Lra Lia Permutation Sorted.
From Verif Require Import M_Base L_Base M_Params M_Geometry M_Pathloss M_Scenario M_Rays M_Antenna M_Cplx M_Coeff S_Coeff L_Trig L_Rotation.
Import ListNotations.
Open Scope list_scope.
Open Scope R_scope.

(* ---- complex arithmetic ---- *)
Lemma cexpi_norm x : cnorm2 (cexpi x) = 1.
Proof. unfold cnorm2, cexpi; cbn. apply trig_one. Qed.
Lemma cexpi_0 : cexpi 0 = c1.
Proof. apply cplx_eq; cbn; [apply cos_0|apply sin_0]. Qed.
Lemma cexpi_add x y : cexpi (x + y) = cmul (cexpi x) (cexpi y).
Proof. apply cplx_eq; cbn; [rewrite cos_plus|rewrite sin_plus]; ring. Qed.
Lemma cnorm2_mul a b : cnorm2 (cmul a b) = cnorm2 a * cnorm2 b.
Proof. unfold cnorm2, cmul; cbn. ring. Qed.
Lemma cnorm2_real x : cnorm2 (creal x) = x * x.
Proof. unfold cnorm2, creal; cbn. ring. Qed.
Lemma creal_mul x y : creal (x * y) = cmul (creal x) (creal y).
Proof. apply cplx_eq; cbn; ring. Qed.
Lemma csum_app l l' : csum (l ++ l') = cadd (csum l) (csum l').
Proof.
  induction l as [|x l IH].
  - change (csum l' = cadd c0 (csum l')). ring.
  - change (cadd x (csum (l ++ l')) = cadd (cadd x (csum l)) (csum l')). rewrite IH. ring.
Qed.
Lemma csum_perm l l' : Permutation l l' -> csum l = csum l'.
Proof.
  induction 1 as [|x l l' P IH|x y l|l1 l2 l3 P1 IH1 P2 IH2]; [reflexivity| | |congruence].
  - change (cadd x (csum l) = cadd x (csum l')). rewrite IH. reflexivity.
  - change (cadd y (cadd x (csum l)) = cadd x (cadd y (csum l))). ring.
Qed.
Lemma csum_flat {A} (f : A -> list cplx) l : csum (flat_map f l) = csum (map (fun x => csum (f x)) l).
Proof.
  induction l as [|x l IH]; [reflexivity|]. cbn [flat_map map]. rewrite csum_app, IH. reflexivity.
Qed.
Lemma csum_scale k l : csum (map (fun x => cmul x k) l) = cmul (csum l) k.
Proof.
  induction l as [|x l IH]; cbn [map].
  - change (c0 = cmul c0 k). ring.
  - change (cadd (cmul x k) (csum (map (fun x => cmul x k) l)) = cmul (cadd x (csum l)) k). rewrite IH. ring.
Qed.

(* ---- C38 ---- *)
Lemma C38_l x ph : 0 < x ->
  cnorm2 (m00 (phase_matrix x ph)) = 1 /\ cnorm2 (m11 (phase_matrix x ph)) = 1 /\
  cnorm2 (m01 (phase_matrix x ph)) = / x /\ cnorm2 (m10 (phase_matrix x ph)) = / x.
Proof.
  intros H. assert (K : sqrt (1 / x) * sqrt (1 / x) = / x).
  { rewrite sqrt_sqrt; [unfold Rdiv; ring|]. unfold Rdiv. rewrite Rmult_1_l. left. apply Rinv_0_lt_compat. exact H. }
  unfold phase_matrix. cbv zeta. cbn [m00 m01 m10 m11]. rewrite !cnorm2_mul, !cexpi_norm, !cnorm2_real, K.
  repeat split; ring.
Qed.

(* ---- C35 ---- *)
Lemma C35_matrix_l fc : let F := faraday_rotation fc in
  (exists a, a = 108 / sq (fc / 1e9) /\
     F = CM (creal (cos (a / 180 * PI))) (creal (- sin (a / 180 * PI))) (creal (sin (a / 180 * PI))) (creal (cos (a / 180 * PI)))) /\
  csub (cmul (m00 F) (m11 F)) (cmul (m01 F) (m10 F)) = c1 /\
  (forall v, cnorm2 (v0 (cmat_vec F v)) + cnorm2 (v1 (cmat_vec F v)) = cnorm2 (v0 v) + cnorm2 (v1 v)).
Proof.
  cbv zeta. unfold faraday_rotation, faraday_angle. cbv zeta.
  set (a := 108 / (fc / 1e9 * (fc / 1e9)) * (PI / 180)).
  split; [|split].
  - exists (108 / sq (fc / 1e9)). split; [reflexivity|].
    replace (108 / sq (fc / 1e9) / 180 * PI) with a by (unfold a, sq; unfold Rdiv; ring). reflexivity.
  - pose proof (trig_one a). apply cplx_eq; unfold csub, cmul; cbn; lra.
  - intros [[xr xi] [yr yi]]. unfold cmat_vec, cnorm2, cadd, cmul, creal; cbn. pose proof (trig_one a).
    set (c := cos a) in *. set (s := sin a) in *.
    transitivity ((c * c + s * s) * (xr * xr + xi * xi + (yr * yr + yi * yi))); [ring|]. rewrite H. ring.
Qed.

(* the transmit field as seen by the phase matrix: rotated exactly from 600 km upwards *)
Lemma field_entry_faraday g T aoa aod zoa zod h u s :
  field_entry g T aoa aod zoa zod (with_faraday g T h) u s =
  (let f_tx := cvec_of (antenna_field (cg_tx g) (lt_tx_ori T) zod aod s) in
   let f_rx := cvec_of (antenna_field (cg_rx g) (lt_rx_ori T) zoa aoa u) in
   let w := cmat_vec h (if Rleb 600000 (lt_bs_height T) then cmat_vec (faraday_rotation (cg_fc g)) f_tx else f_tx) in
   cadd (cmul (v0 f_rx) (v0 w)) (cmul (v1 f_rx) (v1 w))).
Proof.
  unfold field_entry, with_faraday. cbv zeta. destruct (Rleb 600000 (lt_bs_height T)); [|reflexivity].
  unfold cmat_vec, cmat_mul; cbn [m00 m01 m10 m11 v0 v1]. ring.
Qed.

(* ---- C34 ---- *)
Lemma vdot_cauchy a b : Rabs (vdot a b) <= sqrt (vdot a a) * sqrt (vdot b b).
Proof.
  assert (NA : 0 <= vdot a a) by (unfold vdot; nra). assert (NB : 0 <= vdot b b) by (unfold vdot; nra).
  rewrite <- sqrt_mult by assumption. rewrite <- sqrt_Rsqr_abs. apply sqrt_le_1_alt. unfold Rsqr.
  destruct a as [x y z], b as [p q r]. unfold vdot; cbn [vx vy vz].
  pose proof (Rle_0_sqr (x * q - y * p)). pose proof (Rle_0_sqr (y * r - z * q)). pose proof (Rle_0_sqr (z * p - x * r)).
  unfold Rsqr in *. nra.
Qed.

Definition ray_frequency (g : cgen) (T : ltopo) (aoa zoa aod zod : R) : R :=
  vdot (if lt_moving_rx T then unit_sphere_vector zoa aoa else unit_sphere_vector zod aod) (lt_vel T) / cg_lambda g
  + (if Rleb 600000 (lt_bs_height T) && lt_doppler T then lt_sat_speed T / cg_lambda g else 0).

Lemma doppler_frequency g T aoa zoa aod zod t :
  doppler g T aoa zoa aod zod t = cexpi (2 * PI * ray_frequency g T aoa zoa aod zod * t).
Proof.
  unfold doppler, doppler_exponent, ray_frequency. cbv zeta. f_equal.
  destruct (Rleb 600000 (lt_bs_height T) && lt_doppler T); unfold Rdiv; ring.
Qed.

Lemma frequency_bound g T aoa zoa aod zod : 0 < cg_lambda g ->
  Rabs (ray_frequency g T aoa zoa aod zod) <= vnorm (lt_vel T) / cg_lambda g +
    (if Rleb 600000 (lt_bs_height T) && lt_doppler T then Rabs (lt_sat_speed T) / cg_lambda g else 0).
Proof.
  intros L. unfold ray_frequency.
  assert (IL : 0 < / cg_lambda g) by (apply Rinv_0_lt_compat; exact L).
  eapply Rle_trans; [apply Rabs_triang|]. apply Rplus_le_compat.
  - unfold Rdiv. rewrite Rabs_mult, (Rabs_right (/ _)) by lra. apply Rmult_le_compat_r; [lra|].
    eapply Rle_trans; [apply vdot_cauchy|].
    destruct (lt_moving_rx T); rewrite usv_norm, sqrt_1, Rmult_1_l; apply Req_le; unfold vnorm; reflexivity.
  - destruct (_ && _); [|rewrite Rabs_R0; lra].
    unfold Rdiv. rewrite Rabs_mult, (Rabs_right (/ _)) by lra. lra.
Qed.

Lemma C34_ray_l g T y ph c r : 0 < cg_fc g ->
  exists f,
    (forall time u s t, rotates_at f (nlos_ray g T y (fun _ => 0) ph c r u s t) (time t) (nlos_ray g T y time ph c r u s t)) /\
    (forall time u s t, cnorm2 (nlos_ray g T y time ph c r u s t) = cnorm2 (nlos_ray g T y (fun _ => 0) ph c r u s t)) /\
    f = vdot (if lt_moving_rx T then rho_hat (r_zoa y c r) (r_aoa y c r) else rho_hat (r_zod y c r) (r_aod y c r)) (lt_vel T)
          / (speed_of_light / cg_fc g)
        + (if Rleb 600000 (lt_bs_height T) && lt_doppler T then lt_sat_speed T / (speed_of_light / cg_fc g) else 0) /\
    Rabs f <= vnorm (lt_vel T) / (speed_of_light / cg_fc g) +
      (if Rleb 600000 (lt_bs_height T) && lt_doppler T then Rabs (lt_sat_speed T) / (speed_of_light / cg_fc g) else 0).
Proof.
  intros HF. assert (L : 0 < cg_lambda g) by (unfold cg_lambda; apply Rdiv_lt_0_compat; [unfold speed_of_light; lra|exact HF]).
  exists (ray_frequency g T (r_aoa y c r) (r_zoa y c r) (r_aod y c r) (r_zod y c r)).
  assert (A : forall time u s t, rotates_at (ray_frequency g T (r_aoa y c r) (r_zoa y c r) (r_aod y c r) (r_zod y c r))
     (nlos_ray g T y (fun _ => 0) ph c r u s t) (time t) (nlos_ray g T y time ph c r u s t)).
  { intros time u s t. unfold rotates_at, nlos_ray. cbv zeta. rewrite !doppler_frequency, Rmult_0_r, cexpi_0. ring. }
  split; [exact A|]. split.
  - intros time u s t. rewrite (A time u s t), cnorm2_mul, cexpi_norm. ring.
  - split; [reflexivity|]. apply frequency_bound. exact L.
Qed.

Lemma C34_los_l g T : 0 < cg_fc g ->
  exists f,
    (forall time u s t, rotates_at f (los_ray g T (fun _ => 0) u s t) (time t) (los_ray g T time u s t)) /\
    f = vdot (if lt_moving_rx T then rho_hat (lt_zoa T) (lt_aoa T) else rho_hat (lt_zod T) (lt_aod T)) (lt_vel T)
          / (speed_of_light / cg_fc g)
        + (if Rleb 600000 (lt_bs_height T) && lt_doppler T then lt_sat_speed T / (speed_of_light / cg_fc g) else 0) /\
    Rabs f <= vnorm (lt_vel T) / (speed_of_light / cg_fc g) +
      (if Rleb 600000 (lt_bs_height T) && lt_doppler T then Rabs (lt_sat_speed T) / (speed_of_light / cg_fc g) else 0).
Proof.
  intros HF. assert (L : 0 < cg_lambda g) by (unfold cg_lambda; apply Rdiv_lt_0_compat; [unfold speed_of_light; lra|exact HF]).
  exists (ray_frequency g T (lt_aoa T) (lt_zoa T) (lt_aod T) (lt_zod T)).
  split; [|split; [reflexivity|apply frequency_bound; exact L]].
  intros time u s t. unfold rotates_at, los_ray. cbv zeta. rewrite !doppler_frequency, Rmult_0_r, cexpi_0. ring.
Qed.

(* phasor laws *)
Lemma C34_phasor_l f : cexpi (2 * PI * f * 0) = c1 /\ (forall t, cexpi (2 * PI * 0 * t) = c1) /\
  (forall t, cnorm2 (cexpi (2 * PI * f * t)) = 1) /\
  (forall t1 t2, cexpi (2 * PI * f * (t1 + t2)) = cmul (cexpi (2 * PI * f * t1)) (cexpi (2 * PI * f * t2))).
Proof.
  split; [rewrite Rmult_0_r; apply cexpi_0|]. split; [intros; rewrite Rmult_0_r, Rmult_0_l; apply cexpi_0|].
  split; [intros; apply cexpi_norm|]. intros. rewrite <- cexpi_add. f_equal. ring.
Qed.

Lemma sat_speed_bound h e w : Rabs (topology_sat_speed h e w) <= satellite_speed h.
Proof.
  unfold topology_sat_speed. rewrite !Rabs_mult.
  assert (A : forall x, Rabs (cos x) <= 1) by (intros; apply Rabs_le; pose proof (COS_bound x); lra).
  assert (S : 0 <= satellite_speed h) by (unfold satellite_speed; apply sqrt_pos).
  rewrite (Rabs_right (satellite_speed h)) by lra.
  pose proof (A w). pose proof (A (e * (PI / 180))). pose proof (Rabs_pos (cos w)). pose proof (Rabs_pos (cos (e * (PI / 180)))).
  set (X := Rabs (cos (e * (PI / 180))) * satellite_speed h).
  assert (X1 : X <= 1 * satellite_speed h) by (apply Rmult_le_compat_r; assumption).
  assert (X0 : 0 <= X) by (apply Rmult_le_pos; assumption).
  assert (Rabs (cos w) * X <= 1 * X) by (apply Rmult_le_compat_r; assumption). lra.
Qed.

(* ---- C28, C29: sub-clustering ---- *)
Section Reduce.
Context (srt srtd : list R -> list nat).

Definition path_sum (h : nat -> nat -> coeff) (p : path) : coeff :=
  fun u s t => csum (map (fun r => h (pt_cluster p) r u s t) (pt_rays p)).
Definition path_delay (delays : list R) (c_ds : R) (p : path) : R :=
  nth (pt_cluster p) delays 0 + pt_offset p * c_ds.

Definition unsorted_paths (order : list nat) : list path :=
  map (fun c => Path c sub_cl_1_ind 0) (firstn 2 order) ++ map (fun c => Path c sub_cl_2_ind 1.28) (firstn 2 order)
  ++ map (fun c => Path c sub_cl_3_ind 2.56) (firstn 2 order) ++ map whole_cluster (skipn 2 order).

Lemma select_perm {A B} (f : A -> B) (L : list A) (d0 : A) (d : B) ind : Permutation ind (seq 0 (length L)) ->
  map (fun k => nth k (map f L) d) ind = map f (gather d0 L ind) /\ Permutation (gather d0 L ind) L.
Proof.
  intros P. split.
  - unfold gather. rewrite map_map. apply map_ext_in. intros k Hk.
    apply (Permutation_in _ P), in_seq in Hk.
    rewrite (nth_indep _ d (f d0)) by (rewrite map_length; lia). apply map_nth.
  - apply gather_perm. exact P.
Qed.

Lemma reduce_sub h powers delays c_ds : valid_argsort srt -> valid_argsort_desc srtd ->
  exists L, Permutation L (unsorted_paths (srtd powers)) /\
    reduce_nlos srt srtd true h powers delays c_ds = (map (path_sum h) L, map (path_delay delays c_ds) L) /\
    StronglySorted Rle (map (path_delay delays c_ds) L).
Proof.
  intros V VD. unfold reduce_nlos. cbv beta iota zeta.
  set (order := srtd powers). set (L0 := unsorted_paths order).
  assert (EH : map (sum_rays h sub_cl_1_ind) (firstn 2 order) ++ map (sum_rays h sub_cl_2_ind) (firstn 2 order)
     ++ map (sum_rays h sub_cl_3_ind) (firstn 2 order) ++ map (sum_rays h (seq 0 rays_per_cluster)) (skipn 2 order)
     = map (path_sum h) L0).
  { unfold L0, unsorted_paths. rewrite !map_app, !map_map. reflexivity. }
  assert (ED : flat_map (fun o => map (fun d => d + o * c_ds) (firstn 2 (gather 0 delays order))) sub_cl_delay_offsets
     ++ skipn 2 (gather 0 delays order) = map (path_delay delays c_ds) L0).
  { unfold L0, unsorted_paths, sub_cl_delay_offsets. cbn [flat_map]. rewrite !map_app, !map_map, app_nil_r, <- !app_assoc.
    unfold gather. rewrite firstn_map, skipn_map, !map_map. unfold path_delay, whole_cluster. cbn [pt_cluster pt_offset].
    f_equal. f_equal. f_equal. apply map_ext. intros; ring. }
  rewrite EH, ED. set (D := map (path_delay delays c_ds) L0).
  destruct (V D) as [P S]. unfold D in P. rewrite map_length in P. fold D in P.
  exists (gather (whole_cluster 0) L0 (srt D)).
  destruct (select_perm (path_sum h) L0 (whole_cluster 0) (fun _ _ _ => c0) _ P) as [E1 PP].
  destruct (select_perm (path_delay delays c_ds) L0 (whole_cluster 0) 0 _ P) as [E2 _].
  fold D in E2. change (map (fun k => nth k D 0) (srt D)) with (gather 0 D (srt D)) in E2.
  split; [exact PP|]. split; [rewrite E1, E2; reflexivity|].
  rewrite <- E2. exact S.
Qed.

Lemma order_head powers : valid_argsort_desc srtd -> (2 <= length powers)%nat ->
  exists c1 c2 rest, srtd powers = c1 :: c2 :: rest /\ two_strongest powers c1 c2 /\
    NoDup (c1 :: c2 :: rest) /\ Permutation (c1 :: c2 :: rest) (seq 0 (length powers)).
Proof.
  intros V N. destruct (V powers) as [P S].
  destruct (srtd powers) as [|c1 [|c2 rest]] eqn:E.
  - apply Permutation_length in P. rewrite seq_length in P. cbn in P. lia.
  - apply Permutation_length in P. rewrite seq_length in P. cbn in P. lia.
  - exists c1, c2, rest. split; [reflexivity|].
    assert (ND : NoDup (c1 :: c2 :: rest)) by (apply (Permutation_NoDup (Permutation_sym P)), seq_NoDup).
    assert (B : forall c, In c (c1 :: c2 :: rest) <-> (c < length powers)%nat).
    { intros c. split; intros I.
      - apply (Permutation_in _ P), in_seq in I. lia.
      - apply (Permutation_in _ (Permutation_sym P)), in_seq. lia. }
    split; [|split; [exact ND|exact P]].
    split; [apply B; left; reflexivity|]. split; [apply B; right; left; reflexivity|].
    split. { inversion ND as [|? ? A ?]. intros ->. apply A. left; reflexivity. }
    intros c Hc N1 N2. apply B in Hc. destruct Hc as [X|[X|I]]; [congruence|congruence|].
    cbn [map] in S. apply StronglySorted_inv in S. destruct S as [S F1]. apply StronglySorted_inv in S. destruct S as [_ F2].
    rewrite Forall_forall in F1, F2. split.
    + apply (F1 (key powers c)). right. apply in_map. exact I.
    + apply (F2 (key powers c)). apply in_map. exact I.
Qed.

Lemma sub_rays_perm : Permutation (sub_cl_1_ind ++ sub_cl_2_ind ++ sub_cl_3_ind) (seq 0 20).
Proof.
  apply NoDup_Permutation.
  - unfold sub_cl_1_ind, sub_cl_2_ind, sub_cl_3_ind. cbn [app]. repeat (constructor; [cbn; intuition lia|]). constructor.
  - apply seq_NoDup.
  - intros x. rewrite in_seq. unfold sub_cl_1_ind, sub_cl_2_ind, sub_cl_3_ind. cbn [app In]. lia.
Qed.

Lemma list_prod_perm {A B} (l l' : list A) (m : list B) : Permutation l l' -> Permutation (list_prod l m) (list_prod l' m).
Proof.
  induction 1 as [|x l l' P IH|x y l|l1 l2 l3 P1 IH1 P2 IH2]; cbn [list_prod].
  - constructor.
  - apply Permutation_app_head. exact IH.
  - rewrite !app_assoc. apply Permutation_app_tail, Permutation_app_comm.
  - eapply Permutation_trans; eassumption.
Qed.

Lemma flat_map_perm {A B} (f : A -> list B) l l' : Permutation l l' -> Permutation (flat_map f l) (flat_map f l').
Proof. intros P. apply Permutation_flat_map. exact P. Qed.

Lemma unsorted_rays order : (2 <= length order)%nat ->
  Permutation (flat_map rays_of (unsorted_paths order)) (list_prod order (seq 0 20)) /\
  length (unsorted_paths order) = (length order + 4)%nat.
Proof.
  intros N. destruct order as [|c1 [|c2 rest]]; cbn in N; try lia.
  split.
  - unfold unsorted_paths. cbn [firstn skipn map app flat_map]. unfold rays_of at 1 2 3 4 5 6. cbn [pt_cluster pt_rays].
    assert (W : forall l, flat_map rays_of (map whole_cluster l) = list_prod l (seq 0 20)).
    { induction l as [|c l IH]; [reflexivity|]. cbn [map flat_map list_prod]. rewrite IH. reflexivity. }
    rewrite W. cbn [list_prod].
    assert (H : forall c : nat, Permutation (map (pair c) sub_cl_1_ind ++ map (pair c) sub_cl_2_ind ++ map (pair c) sub_cl_3_ind) (map (pair c) (seq 0 20))).
    { intros c. rewrite <- !map_app. apply Permutation_map, sub_rays_perm. }
    rewrite <- (H c1), <- (H c2). generalize (list_prod rest (seq 0 20)) as Z.
    generalize (map (pair c1) sub_cl_1_ind) as a1, (map (pair c1) sub_cl_2_ind) as a2, (map (pair c1) sub_cl_3_ind) as a3,
      (map (pair c2) sub_cl_1_ind) as b1, (map (pair c2) sub_cl_2_ind) as b2, (map (pair c2) sub_cl_3_ind) as b3.
    intros. rewrite <- !app_assoc. apply Permutation_app_head.
    etransitivity; [apply Permutation_app_swap_app|]. apply Permutation_app_head.
    etransitivity; [apply Permutation_app_head, Permutation_app_swap_app|]. apply Permutation_app_swap_app.
  - unfold unsorted_paths. rewrite !app_length, !map_length. cbn [firstn skipn length]. lia.
Qed.
End Reduce.

(* the same link with its LoS state or distance replaced *)
Definition with_los (b : bool) (T : ltopo) : ltopo :=
  {| lt_vel := lt_vel T; lt_moving_rx := lt_moving_rx T; lt_aoa := lt_aoa T; lt_aod := lt_aod T; lt_zoa := lt_zoa T;
     lt_zod := lt_zod T; lt_los := b; lt_d3d := lt_d3d T; lt_tx_ori := lt_tx_ori T; lt_rx_ori := lt_rx_ori T;
     lt_bs_height := lt_bs_height T; lt_doppler := lt_doppler T; lt_sat_speed := lt_sat_speed T |}.
Definition with_distance (d : R) (T : ltopo) : ltopo :=
  {| lt_vel := lt_vel T; lt_moving_rx := lt_moving_rx T; lt_aoa := lt_aoa T; lt_aod := lt_aod T; lt_zoa := lt_zoa T;
     lt_zod := lt_zod T; lt_los := lt_los T; lt_d3d := d; lt_tx_ori := lt_tx_ori T; lt_rx_ori := lt_rx_ori T;
     lt_bs_height := lt_bs_height T; lt_doppler := lt_doppler T; lt_sat_speed := lt_sat_speed T |}.
Definition without_subclusters (g : cgen) : cgen :=
  {| cg_fc := cg_fc g; cg_tx := cg_tx g; cg_rx := cg_rx g; cg_sub := false |}.


Lemma C29_l srt srtd g T k y fs c_ds ph : valid_argsort srt -> valid_argsort_desc srtd ->
  cg_sub g = true -> lt_los T = false ->
  length (r_powers y) = length (r_delays y) -> (2 <= length (r_delays y))%nat ->
  let '(h, d) := cir srt srtd g T k y fs c_ds ph in
  let n := length (r_delays y) in
  let ray := nlos_ray g T y (fun i => INR i / fs) ph in
  exists L c1 c2,
    two_strongest (r_powers y) c1 c2 /\
    Permutation L (split_cluster c1 ++ split_cluster c2 ++
      map whole_cluster (filter (fun c => negb (Nat.eqb c c1) && negb (Nat.eqb c c2)) (seq 0 n))) /\
    h = map (fun p u s t => csum (map (fun r => ray (pt_cluster p) r u s t) (pt_rays p))) L /\
    d = map (fun p => nth (pt_cluster p) (r_delays y) 0 + pt_offset p * c_ds) L /\
    StronglySorted Rle d.
Proof.
  intros V VD Hs Hl EL N. unfold cir, step_11. rewrite Hs, Hl.
  destruct (reduce_sub srt srtd (nlos_ray g T y (fun i => INR i / fs) ph) (r_powers y) (r_delays y) c_ds V VD)
    as (L & PL & E & S). rewrite E. cbv zeta.
  destruct (order_head srtd (r_powers y) VD ltac:(lia)) as (c1 & c2 & rest & Eo & TS & ND & P). rewrite Eo in PL.
  exists L, c1, c2. split; [exact TS|]. split; [|split; [reflexivity|split; [reflexivity|exact S]]].
  etransitivity; [exact PL|]. unfold unsorted_paths. cbn [firstn skipn map app].
  unfold split_cluster, documented_subclusters. cbn [map fst snd app].
  change [0;1;2;3;4;5;6;7;18;19]%nat with sub_cl_1_ind. change [8;9;10;11;16;17]%nat with sub_cl_2_ind.
  change [12;13;14;15]%nat with sub_cl_3_ind.
  assert (PR : Permutation rest (filter (fun c => negb (Nat.eqb c c1) && negb (Nat.eqb c c2)) (seq 0 (length (r_delays y))))).
  { inversion ND as [|? ? N1 ND']; subst. inversion ND' as [|? ? N2 ND'']; subst.
    apply NoDup_Permutation; [exact ND''|apply NoDup_filter, seq_NoDup|].
    intros c. rewrite filter_In, andb_true_iff, !negb_true_iff, !Nat.eqb_neq. rewrite <- EL. split.
    - intros I. split; [apply (Permutation_in _ P); right; right; exact I|].
      split; intros ->; [apply N1; right; exact I|apply N2; exact I].
    - intros [I [X Y]]. apply (Permutation_in _ (Permutation_sym P)) in I. destruct I as [I|[I|I]]; congruence. }
  rewrite <- PR. generalize (map whole_cluster rest) as Z.
  generalize (Path c1 sub_cl_1_ind 0) as a1, (Path c1 sub_cl_2_ind 1.28) as a2, (Path c1 sub_cl_3_ind 2.56) as a3,
     (Path c2 sub_cl_1_ind 0) as b1, (Path c2 sub_cl_2_ind 1.28) as b2, (Path c2 sub_cl_3_ind 2.56) as b3.
  intros. constructor. etransitivity; [apply perm_swap|]. constructor.
  etransitivity; [constructor; apply perm_swap|]. apply perm_swap.
Qed.

Lemma total_list_prod n (h : nat -> nat -> cplx) :
  total n 20 h = csum (map (fun c => csum (map (h c) (seq 0 20))) (seq 0 n)).
Proof.
  unfold total. generalize (seq 0 n) as l. induction l as [|c l IH]; [reflexivity|].
  cbn [list_prod]. rewrite map_app, csum_app, IH, map_map. reflexivity.
Qed.

Lemma C28_l srt srtd g T k y fs c_ds ph : valid_argsort srt -> valid_argsort_desc srtd ->
  cg_sub g = true -> lt_los T = false ->
  length (r_powers y) = length (r_delays y) -> (2 <= length (r_delays y))%nat ->
  let '(h, d) := cir srt srtd g T k y fs c_ds ph in
  let n := length (r_delays y) in
  let ray := nlos_ray g T y (fun i => INR i / fs) ph in
  length h = (n + 4)%nat /\ length d = (n + 4)%nat /\
  (exists L, Permutation (flat_map rays_of L) (list_prod (seq 0 n) (seq 0 20)) /\
     h = map (fun p u s t => csum (map (fun r => ray (pt_cluster p) r u s t) (pt_rays p))) L /\
     (forall p, In p L -> In (length (pt_rays p)) [10; 6; 4; 20]%nat)) /\
  forall u s t, csum (map (fun hk => hk u s t) h) = total n 20 (fun c r => ray c r u s t) /\
    csum (map (fun hk => hk u s t) h) =
    csum (map (fun hk => hk u s t) (fst (cir srt srtd (without_subclusters g) T k y fs c_ds ph))).
Proof.
  intros V VD Hs Hl EL N. unfold cir, step_11. rewrite Hs, Hl.
  set (ray := nlos_ray g T y (fun i => INR i / fs) ph).
  destruct (reduce_sub srt srtd ray (r_powers y) (r_delays y) c_ds V VD) as (L & PL & E & S).
  rewrite E. cbv zeta.
  destruct (VD (r_powers y)) as [PO _].
  assert (LO : length (srtd (r_powers y)) = length (r_delays y)).
  { rewrite <- EL. apply Permutation_length in PO. rewrite seq_length in PO. exact PO. }
  destruct (unsorted_rays (srtd (r_powers y)) ltac:(lia)) as [UR UL].
  assert (RP : Permutation (flat_map rays_of L) (list_prod (seq 0 (length (r_delays y))) (seq 0 20))).
  { etransitivity; [apply flat_map_perm; exact PL|]. etransitivity; [exact UR|]. apply list_prod_perm. rewrite <- EL. exact PO. }
  assert (LL : length L = (length (r_delays y) + 4)%nat) by (rewrite (Permutation_length PL), UL, LO; reflexivity).
  split; [rewrite map_length; exact LL|]. split; [rewrite map_length; exact LL|]. split.
  { exists L. split; [exact RP|]. split; [reflexivity|]. intros p Ip. apply (Permutation_in _ PL) in Ip.
    unfold unsorted_paths in Ip. rewrite !in_app_iff, !in_map_iff in Ip.
    destruct Ip as [(c & <- & _)|[(c & <- & _)|[(c & <- & _)|(c & <- & _)]]]; cbn; auto. }
  intros u s t.
  assert (A : csum (map (fun hk => hk u s t) (map (path_sum ray) L)) = total (length (r_delays y)) 20 (fun c r => ray c r u s t)).
  { rewrite map_map. unfold path_sum, total.
    rewrite <- (csum_perm _ _ (Permutation_map (fun cr => ray (fst cr) (snd cr) u s t) RP)).
    clear. induction L as [|p L IH]; [reflexivity|].
    cbn [map flat_map]. rewrite map_app, csum_app, <- IH. unfold rays_of at 1. rewrite map_map. reflexivity. }
  split; [exact A|]. rewrite A.
  assert (B : csum (map (fun hk => hk u s t) (fst (reduce_nlos srt srtd false ray (r_powers y) (r_delays y) c_ds)))
     = total (length (r_delays y)) 20 (fun c r => ray c r u s t)).
  { unfold reduce_nlos. cbn [fst].
    destruct (V (r_delays y)) as [P _].
    destruct (select_perm (sum_rays ray (seq 0 rays_per_cluster)) (seq 0 (length (r_delays y))) 0%nat (fun _ _ _ => c0) (srt (r_delays y))
       ltac:(rewrite seq_length; exact P)) as [E1 P1].
    rewrite E1, map_map. unfold sum_rays.
    rewrite (csum_perm _ _ (Permutation_map _ P1)). symmetry. apply total_list_prod. }
  rewrite <- B. unfold without_subclusters. cbn [cg_sub].
  change (nlos_ray {| cg_fc := cg_fc g; cg_tx := cg_tx g; cg_rx := cg_rx g; cg_sub := false |} T y (fun i => INR i / fs) ph) with ray.
  destruct (reduce_nlos srt srtd false ray (r_powers y) (r_delays y) c_ds); reflexivity.
Qed.

Lemma C30_l srt srtd g T fs k y c_ds ph : lt_los T = true -> 0 < k ->
  let direct := los_ray g T (fun i => INR i / fs) in
  let '(h, d) := cir srt srtd g T k y fs c_ds ph in
  let '(h0, d0) := cir srt srtd g (with_los false T) k y fs c_ds ph in
  d = d0 /\ length h = length h0 /\
  exists a b, sq a = k / (k + 1) /\ sq b = 1 / (k + 1) /\ sq a + sq b = 1 /\ 0 < a /\ 0 < b /\
  forall i u s t, (i < length h0)%nat ->
    nth i h (fun _ _ _ => c0) u s t =
    cadd (cmul (nth i h0 (fun _ _ _ => c0) u s t) (creal b))
         (if Nat.eqb i 0 then cmul (direct u s t) (creal a) else c0).
Proof.
  intros Hl Hk direct. unfold direct; clear direct.
  unfold cir, step_11. rewrite Hl.
  change (nlos_ray g (with_los false T) y (fun i => INR i / fs) ph) with (nlos_ray g T y (fun i => INR i / fs) ph).
  change (lt_los (with_los false T)) with false.
  destruct (reduce_nlos srt srtd (cg_sub g) _ (r_powers y) (r_delays y) c_ds) as [h0 d0].
  split; [reflexivity|].
  assert (LH : length (combine_los k (los_ray g T (fun i => INR i / fs)) h0) = length h0).
  { unfold combine_los. destruct h0 as [|x h0]; [reflexivity|]. cbn [map length]. rewrite map_length. reflexivity. }
  split; [exact LH|].
  assert (K1 : 0 < k / (k + 1)) by (apply Rdiv_lt_0_compat; lra).
  assert (K2 : 0 < 1 / (k + 1)) by (apply Rdiv_lt_0_compat; lra).
  exists (sqrt (k / (k + 1))), (sqrt (1 / (k + 1))). unfold sq. rewrite !sqrt_sqrt by lra.
  split; [reflexivity|]. split; [reflexivity|]. split; [field; lra|].
  split; [apply sqrt_lt_R0; exact K1|]. split; [apply sqrt_lt_R0; exact K2|].
  intros i u s t Hi. unfold combine_los. destruct h0 as [|x h0]; [cbn in Hi; lia|]. cbn [map].
  destruct i as [|i]; cbn [nth Nat.eqb].
  - unfold add_coeff, scale_coeff. ring.
  - cbn [length] in Hi. rewrite (nth_indep _ _ (scale_coeff (sqrt (1 / (k + 1))) (fun _ _ _ => c0))) by (rewrite map_length; lia).
    rewrite map_nth. unfold scale_coeff. ring.
Qed.



(* ---- C64: phase of the direct ray ---- *)
Lemma los_distance g T d time u s t :
  los_ray g (with_distance d T) time u s t =
  cmul (los_ray g (with_distance 0 T) time u s t) (cexpi (2 * PI * d / (speed_of_light / cg_fc g))).
Proof.
  unfold los_ray. cbv zeta.
  change (lt_d3d (with_distance d T)) with d. change (lt_d3d (with_distance 0 T)) with 0.
  replace (2 * PI * 0 / cg_lambda g) with 0 by (unfold Rdiv; ring). rewrite cexpi_0.
  change (lt_aoa (with_distance d T)) with (lt_aoa (with_distance 0 T)).
  change (field_entry g (with_distance d T)) with (field_entry g (with_distance 0 T)).
  change (array_offset g (with_distance d T)) with (array_offset g (with_distance 0 T)).
  change (doppler g (with_distance d T)) with (doppler g (with_distance 0 T)).
  change (with_faraday g (with_distance d T)) with (with_faraday g (with_distance 0 T)).
  change (speed_of_light / cg_fc g) with (cg_lambda g).
  set (f := field_entry _ _ _ _ _ _ _ _ _). set (a := array_offset _ _ _ _ _ _ _ _). set (p := doppler _ _ _ _ _ _ _).
  set (e := cexpi _). ring.
Qed.

Lemma C64_l g T u s : 0 < cg_fc g -> cnorm2 (los_ray g (with_distance 0 T) (fun _ => 0) u s 0%nat) <> 0 ->
  ~ (forall d, 0 <= d -> los_ray g (with_distance d T) (fun _ => 0) u s 0%nat =
       cmul (los_ray g (with_distance 0 T) (fun _ => 0) u s 0%nat) (cexpi (- (2 * PI * d / (speed_of_light / cg_fc g))))).
Proof.
  intros HF NZ H. assert (L : 0 < speed_of_light / cg_fc g) by (apply Rdiv_lt_0_compat; [unfold speed_of_light; lra|exact HF]).
  set (lam := speed_of_light / cg_fc g) in *. specialize (H (lam / 4) ltac:(lra)).
  rewrite los_distance in H. fold lam in H.
  set (x := los_ray g (with_distance 0 T) (fun _ => 0) u s 0%nat) in *.
  replace (2 * PI * (lam / 4) / lam) with (PI / 2) in H by (field; lra).
  unfold cexpi in H. rewrite cos_neg, sin_neg, cos_PI2, sin_PI2 in H.
  destruct x as [xr xi]. unfold cmul in H; cbn in H. injection H as A B. apply NZ. unfold cnorm2; cbn.
  assert (xi = 0) by lra. assert (xr = 0) by lra. subst. ring.
Qed.

Lemma C64_advance_l g T d d' time u s t :
  los_ray g (with_distance (d + d') T) time u s t =
  cmul (los_ray g (with_distance d T) time u s t) (cexpi (2 * PI * d' / (speed_of_light / cg_fc g))).
Proof.
  rewrite (los_distance g T (d + d')), (los_distance g T d).
  replace (2 * PI * (d + d') / (speed_of_light / cg_fc g))
    with (2 * PI * d / (speed_of_light / cg_fc g) + 2 * PI * d' / (speed_of_light / cg_fc g)) by (unfold Rdiv; ring).
  rewrite cexpi_add. ring.
Qed.

(* ---- C66: reciprocity below 600 km ---- *)
Lemma doppler_swap g T aoa zoa aod zod t : doppler (swap_gen g) (swap_topo T) aod zod aoa zoa t = doppler g T aoa zoa aod zod t.
Proof.
  unfold doppler, doppler_exponent, swap_gen, swap_topo, cg_lambda. cbn [lt_moving_rx lt_vel lt_bs_height lt_doppler lt_sat_speed cg_fc].
  destruct (lt_moving_rx T); reflexivity.
Qed.

Lemma array_swap g T aoa aod zoa zod u s :
  array_offset (swap_gen g) (swap_topo T) aod aoa zod zoa s u = array_offset g T aoa aod zoa zod u s.
Proof.
  unfold array_offset, swap_gen, swap_topo, cg_lambda. cbn [lt_rx_ori lt_tx_ori cg_fc cg_tx cg_rx]. ring.
Qed.

Lemma field_swap g T aoa aod zoa zod a b c d u s :
  field_entry (swap_gen g) (swap_topo T) aod aoa zod zoa (CM a c b d) s u = field_entry g T aoa aod zoa zod (CM a b c d) u s.
Proof.
  unfold field_entry, swap_gen, swap_topo, cmat_vec. cbn [lt_rx_ori lt_tx_ori cg_tx cg_rx m00 m01 m10 m11 v0 v1]. ring.
Qed.

Lemma C66_l g T y time ph c r u s t : lt_bs_height T < 600000 ->
  nlos_ray (swap_gen g) (swap_topo T) (swap_rays y) time (swap_phases ph) c r s u t = nlos_ray g T y time ph c r u s t /\
  los_ray (swap_gen g) (swap_topo T) time s u t = los_ray g T time u s t.
Proof.
  intros H. assert (B : Rleb 600000 (lt_bs_height T) = false) by (apply Rleb_false; exact H).
  unfold nlos_ray, los_ray, with_faraday. cbv zeta.
  change (lt_bs_height (swap_topo T)) with (lt_bs_height T). rewrite B.
  unfold swap_rays. cbn [r_aoa r_aod r_zoa r_zod r_xpr r_powers].
  change (lt_aoa (swap_topo T)) with (lt_aod T). change (lt_aod (swap_topo T)) with (lt_aoa T).
  change (lt_zoa (swap_topo T)) with (lt_zod T). change (lt_zod (swap_topo T)) with (lt_zoa T).
  change (lt_d3d (swap_topo T)) with (lt_d3d T). change (cg_lambda (swap_gen g)) with (cg_lambda g).
  rewrite !doppler_swap, !array_swap. unfold phase_matrix. cbv zeta. rewrite !field_swap. split; reflexivity.
Qed.

(* ---- C35: where the rotation is applied ---- *)
Lemma C35_applied_l g T y time ph c r u s t :
  let a := 108 / sq (cg_fc g / 1e9) / 180 * PI in
  let tx zod aod :=
    let f := antenna_field (cg_tx g) (lt_tx_ori T) zod aod s in
    if Rleb 600000 (lt_bs_height T)
    then (cos a * fst f - sin a * snd f, sin a * fst f + cos a * snd f) else f in
  let rx zoa aoa := antenna_field (cg_rx g) (lt_rx_ori T) zoa aoa u in
  let through m zoa aoa zod aod :=
    cadd (cmul (creal (fst (rx zoa aoa))) (cadd (cmul (m00 m) (creal (fst (tx zod aod)))) (cmul (m01 m) (creal (snd (tx zod aod))))))
         (cmul (creal (snd (rx zoa aoa))) (cadd (cmul (m10 m) (creal (fst (tx zod aod)))) (cmul (m11 m) (creal (snd (tx zod aod)))))) in
  (exists k, cnorm2 k = cnorm2 (creal (sqrt (nth c (r_powers y) 0 / 20))) /\
    nlos_ray g T y time ph c r u s t =
    cmul k (through (phase_matrix (r_xpr y c r) (ph c r)) (r_zoa y c r) (r_aoa y c r) (r_zod y c r) (r_aod y c r))) /\
  (exists k, cnorm2 k = 1 /\
    los_ray g T time u s t = cmul k (through (CM c1 c0 c0 (creal (- (1)))) (lt_zoa T) (lt_aoa T) (lt_zod T) (lt_aod T))).
Proof.
  cbv zeta.
  assert (F : forall m zoa aoa zod aod,
    field_entry g T aoa aod zoa zod (with_faraday g T m) u s =
    (let a := 108 / sq (cg_fc g / 1e9) / 180 * PI in
     let f := antenna_field (cg_tx g) (lt_tx_ori T) zod aod s in
     let f' := if Rleb 600000 (lt_bs_height T)
       then (cos a * fst f - sin a * snd f, sin a * fst f + cos a * snd f) else f in
     let rx := antenna_field (cg_rx g) (lt_rx_ori T) zoa aoa u in
     cadd (cmul (creal (fst rx)) (cadd (cmul (m00 m) (creal (fst f'))) (cmul (m01 m) (creal (snd f')))))
          (cmul (creal (snd rx)) (cadd (cmul (m10 m) (creal (fst f'))) (cmul (m11 m) (creal (snd f'))))))).
  { intros m zoa aoa zod aod. rewrite field_entry_faraday. cbv zeta. unfold cvec_of.
    destruct (antenna_field (cg_tx g) (lt_tx_ori T) zod aod s) as [x1 x2]. cbn [fst snd].
    destruct (Rleb 600000 (lt_bs_height T)); unfold cmat_vec; cbn [v0 v1 m00 m01 m10 m11 fst snd]; [|reflexivity].
    unfold faraday_rotation, faraday_angle. cbv zeta. unfold cmat_vec. cbn [m00 m01 m10 m11 v0 v1].
    replace (108 / (cg_fc g / 1e9 * (cg_fc g / 1e9)) * (PI / 180)) with (108 / sq (cg_fc g / 1e9) / 180 * PI) by (unfold sq, Rdiv; ring).
    set (a := 108 / sq (cg_fc g / 1e9) / 180 * PI).
    assert (E1 : creal (cos a * x1 - sin a * x2) = cadd (cmul (creal (cos a)) (creal x1)) (cmul (creal (- sin a)) (creal x2)))
      by (apply cplx_eq; cbn; ring).
    assert (E2 : creal (sin a * x1 + cos a * x2) = cadd (cmul (creal (sin a)) (creal x1)) (cmul (creal (cos a)) (creal x2)))
      by (apply cplx_eq; cbn; ring).
    rewrite E1, E2. reflexivity. }
  assert (A : forall aoa aod zoa zod, cnorm2 (array_offset g T aoa aod zoa zod u s) = 1)
    by (intros; unfold array_offset; cbv zeta; rewrite cnorm2_mul, !cexpi_norm; ring).
  split.
  - exists (cmul (cmul (array_offset g T (r_aoa y c r) (r_aod y c r) (r_zoa y c r) (r_zod y c r) u s)
                 (doppler g T (r_aoa y c r) (r_zoa y c r) (r_aod y c r) (r_zod y c r) (time t)))
                 (creal (sqrt (nth c (r_powers y) 0 / 20)))).
    split; [rewrite !cnorm2_mul, A; unfold doppler; rewrite cexpi_norm; ring|].
    unfold nlos_ray. cbv zeta. rewrite F. cbv zeta.
    replace (INR rays_per_cluster) with 20 by (unfold rays_per_cluster; rewrite INR_IZR_INZ; reflexivity). ring.
  - exists (cmul (cmul (array_offset g T (lt_aoa T) (lt_aod T) (lt_zoa T) (lt_zod T) u s)
                 (doppler g T (lt_aoa T) (lt_zoa T) (lt_aod T) (lt_zod T) (time t)))
                 (cexpi (2 * PI * lt_d3d T / cg_lambda g))).
    split; [rewrite !cnorm2_mul, A; unfold doppler; rewrite !cexpi_norm; ring|].
    unfold los_ray. cbv zeta. rewrite F. cbv zeta. ring.
Qed.

(* ---- a concrete link: one vertical omni antenna on either side, satellite at 600 km ---- *)
Definition omni_v : element := {| el_pattern := fun _ _ => 1; el_slant := 0 |}.
Definition omni_array : panel_array :=
  {| pa_num_ant := 1; pa_dual := false; pa_type := "V"; pa_pos := fun _ => V3 0 0 0; pa_ind1 := [0%nat]; pa_ind2 := [];
     pa_pol1 := omni_v; pa_pol2 := None; pa_wavelength := speed_of_light / 2e9 |}.
Definition ex_gen : cgen := {| cg_fc := 2e9; cg_tx := omni_array; cg_rx := omni_array; cg_sub := true |}.
Definition ex_topo : ltopo :=
  {| lt_vel := V3 1 2 3; lt_moving_rx := true; lt_aoa := 0; lt_aod := 0; lt_zoa := PI / 2; lt_zod := PI / 2; lt_los := true;
     lt_d3d := 600000; lt_tx_ori := V3 0 0 0; lt_rx_ori := V3 0 0 0; lt_bs_height := 600000; lt_doppler := true;
     lt_sat_speed := 100 |}.
Definition ex_rays : rays :=
  {| r_delays := [0; 1e-7; 3e-7]; r_powers := [0.2; 0.5; 0.3]; r_aoa := fun _ _ => 0; r_aod := fun _ _ => 0;
     r_zoa := fun _ _ => PI / 2; r_zod := fun _ _ => PI / 2; r_xpr := fun _ _ => 10 |}.

Lemma omni_element j1 : exists e, make_element j1 "omni" 0 = Ok e /\
  (forall th ph, el_pattern e th ph = el_pattern omni_v th ph) /\ el_slant e = el_slant omni_v.
Proof. eexists. split; [reflexivity|]. split; reflexivity. Qed.

Lemma ex_field k : antenna_field omni_array (V3 0 0 0) (PI / 2) 0 k = (1, 0).
Proof.
  unfold antenna_field. destruct (gcs_to_lcs (V3 0 0 0) (PI / 2) 0) as [a b]. cbn [pa_pol1 pa_pol2 omni_array].
  assert (P : compute_psi (V3 0 0 0) (PI / 2) 0 = 0).
  { unfold compute_psi, psi_imag, psi_real. cbn [vx vy vz].
    rewrite sin_PI2, cos_PI2, Rminus_0_r, sin_0, cos_0.
    replace (0 * 1 + 0 * 1 * 0) with 0 by ring. replace (0 * 0 * 0 + 1 * (1 * 1 - 0 * 0 * 1)) with 1 by ring.
    unfold atan2. destruct (Rlt_dec 0 1) as [_|N]; [|lra]. replace (0 / 1) with 0 by field. apply atan_0. }
  unfold l2g_response. rewrite P. cbv zeta. unfold field. cbn [el_pattern el_slant omni_v fst snd].
  rewrite sin_0, cos_0, sqrt_1. f_equal; ring.
Qed.

Lemma ex_los_nonzero d : cnorm2 (los_ray ex_gen (with_distance d ex_topo) (fun _ => 0) 0%nat 0%nat 0%nat) <> 0.
Proof.
  destruct (C35_applied_l ex_gen (with_distance d ex_topo) ex_rays (fun _ => 0) (fun _ _ _ => 0) 0%nat 0%nat 0%nat 0%nat 0%nat)
    as [_ (k & K & E)]. rewrite E, cnorm2_mul, K. clear E K k.
  cbn [with_distance ex_topo lt_tx_ori lt_rx_ori lt_zoa lt_aoa lt_zod lt_aod lt_bs_height cg_tx cg_rx cg_fc ex_gen].
  rewrite !ex_field. rewrite (proj2 (Rleb_true 600000 600000)) by lra. cbn [fst snd m00 m01 m10 m11].
  set (a := 108 / sq (2e9 / 1e9) / 180 * PI).
  assert (C : 0 < cos a).
  { assert (Ea : a = 27 / 180 * PI) by (unfold a, sq; lra). rewrite Ea. pose proof PI_RGT_0. apply cos_gt_0; lra. }
  unfold cnorm2, cadd, cmul, creal, c0, c1; cbn. apply Rgt_not_eq. nra.
Qed.
