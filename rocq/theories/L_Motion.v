(* Moving the whole scene leaves every link unchanged. *)
From Coq Require Import Reals String List Bool Arith Lia Lra FunctionalExtensionality.
From Verif Require Import M_Base L_Base M_Params S_Config L_Params L_Config M_Geometry L_Trig L_Geometry M_Pathloss M_Scenario
  M_Lsp S_Linear L_Linear S_Lsp S_Topology L_Scenario L_Fresh L_Topology L_Lsp M_Rays S_Rays L_Rays M_Antenna M_Cplx M_Coeff S_Coeff L_Coeff
  M_Channel S_Channel L_Chol L_Channel L_Link S_Isolation L_Isolation S_Motion S_Evolution.
Import ListNotations.
Open Scope string_scope.
Open Scope list_scope.
Open Scope R_scope.

Lemma sum_sq w : cos w * cos w + sin w * sin w = 1.
Proof. rewrite Rplus_comm. exact (sin2_cos2 w). Qed.

Lemma usv_turned w th a a' : same_heading a' (a + w) -> unit_sphere_vector th a' = turned w (unit_sphere_vector th a).
Proof.
  intros [C S]. unfold unit_sphere_vector, turned; cbn [vx vy vz]. rewrite C, S, cos_plus, sin_plus. f_equal; ring.
Qed.

Lemma vdot_turned w u v : vdot (turned w u) (turned w v) = vdot u v.
Proof.
  unfold vdot, turned; cbn [vx vy vz].
  transitivity ((cos w * cos w + sin w * sin w) * (vx u * vx v + vy u * vy v) + vz u * vz v); [ring|]. rewrite sum_sq. ring.
Qed.

Lemma rot_pos_turned w o o' p : reoriented w o o' -> rot_pos o' p = turned w (rot_pos o p).
Proof.
  intros ([C S] & E1 & E2). unfold rot_pos, forward_rotation_matrix, mat3_vec, turned, vdot; cbn [vx vy vz row1 row2 row3].
  rewrite C, S, E1, E2, cos_plus, sin_plus. f_equal; ring.
Qed.

Lemma reverse_turned w o o' v : reoriented w o o' -> mat3_vec (reverse_rotation_matrix o') (turned w v) = mat3_vec (reverse_rotation_matrix o) v.
Proof.
  intros ([C S] & E1 & E2). unfold reverse_rotation_matrix, mat3_transpose, forward_rotation_matrix, mat3_vec, turned, vdot; cbn [vx vy vz row1 row2 row3].
  rewrite C, S, E1, E2, cos_plus, sin_plus. assert (Q := sum_sq w).
  f_equal.
  - transitivity ((cos w * cos w + sin w * sin w) * (cos (vx o) * cos (vy o) * vx v + sin (vx o) * cos (vy o) * vy v) + - sin (vy o) * vz v); [ring|rewrite Q; ring].
  - transitivity ((cos w * cos w + sin w * sin w) * ((cos (vx o) * sin (vy o) * sin (vz o) - sin (vx o) * cos (vz o)) * vx v
      + (sin (vx o) * sin (vy o) * sin (vz o) + cos (vx o) * cos (vz o)) * vy v) + cos (vy o) * sin (vz o) * vz v); [ring|rewrite Q; ring].
  - transitivity ((cos w * cos w + sin w * sin w) * ((cos (vx o) * sin (vy o) * cos (vz o) + sin (vx o) * sin (vz o)) * vx v
      + (sin (vx o) * sin (vy o) * cos (vz o) - cos (vx o) * sin (vz o)) * vy v) + cos (vy o) * cos (vz o) * vz v); [ring|rewrite Q; ring].
Qed.

Lemma heading_diff w a a' o o' : same_heading a' (a + w) -> same_heading o' (o + w) -> cos (a' - o') = cos (a - o) /\ sin (a' - o') = sin (a - o).
Proof.
  intros [C S] [C' S']. rewrite cos_minus, sin_minus, C, S, C', S'. rewrite <- cos_minus, <- sin_minus.
  split; f_equal; ring.
Qed.

Lemma field_turned w a o o' th ph ph' k : reoriented w o o' -> same_heading ph' (ph + w) ->
  antenna_field a o' th ph' k = antenna_field a o th ph k.
Proof.
  intros RO H.
  assert (G : gcs_to_lcs o' th ph' = gcs_to_lcs o th ph).
  { unfold gcs_to_lcs. rewrite (usv_turned w th ph ph' H), (reverse_turned w o o' _ RO). reflexivity. }
  assert (P : compute_psi o' th ph' = compute_psi o th ph).
  { destruct RO as (R1 & R2 & R3). destruct (heading_diff w ph ph' _ _ H R1) as [D1 D2].
    unfold compute_psi, psi_imag, psi_real. cbv zeta. rewrite D1, D2, R2, R3. reflexivity. }
  unfold antenna_field, l2g_response. rewrite G, P. reflexivity.
Qed.

(* ---- the link's part of the topology, moved; motion aside ---- *)
Record turned_topo (w : R) (T T' : ltopo) : Prop := {
  tt_end : lt_moving_rx T' = lt_moving_rx T;
  tt_aoa : same_heading (lt_aoa T') (lt_aoa T + w); tt_aod : same_heading (lt_aod T') (lt_aod T + w);
  tt_zoa : lt_zoa T' = lt_zoa T; tt_zod : lt_zod T' = lt_zod T;
  tt_los : lt_los T' = lt_los T; tt_d3d : lt_d3d T' = lt_d3d T;
  tt_tx : reoriented w (lt_tx_ori T) (lt_tx_ori T'); tt_rx : reoriented w (lt_rx_ori T) (lt_rx_ori T');
  tt_h : lt_bs_height T' = lt_bs_height T }.
Record turned_rays (w : R) (y y' : rays) : Prop := {
  tr_delays : r_delays y' = r_delays y; tr_powers : r_powers y' = r_powers y;
  tr_aoa : forall c r, same_heading (r_aoa y' c r) (r_aoa y c r + w); tr_aod : forall c r, same_heading (r_aod y' c r) (r_aod y c r + w);
  tr_zoa : forall c r, r_zoa y' c r = r_zoa y c r; tr_zod : forall c r, r_zod y' c r = r_zod y c r;
  tr_xpr : forall c r, r_xpr y' c r = r_xpr y c r }.

Lemma turned_swap w T T' y y' : turned_topo w T T' -> turned_rays w y y' ->
  turned_topo w (swap_topo T) (swap_topo T') /\ turned_rays w (swap_rays y) (swap_rays y').
Proof.
  intros [] []. split; constructor; cbn; try assumption. congruence.
Qed.

(* speed the satellite adds to every ray *)
Definition added_speed (T : ltopo) : R := if Rleb 600000 (lt_bs_height T) && lt_doppler T then lt_sat_speed T else 0.

(* every coefficient of h' at t' is x times the one of h at t *)
Definition scaled_at (x : cplx) (t t' : nat) (h h' : coeff) : Prop := forall u s, h' u s t' = cmul x (h u s t).

Lemma csum_scaled x l : csum (map (cmul x) l) = cmul x (csum l).
Proof.
  induction l as [|a l IH]; cbn; [unfold cmul, c0; cbn; f_equal; ring|]. unfold csum in *. cbn. rewrite IH. unfold cmul, cadd; cbn; f_equal; ring.
Qed.

Lemma sum_rays_scaled x t t' h h' ind c : (forall c r, scaled_at x t t' (h c r) (h' c r)) -> scaled_at x t t' (sum_rays h ind c) (sum_rays h' ind c).
Proof.
  intros H u s. unfold sum_rays. rewrite <- csum_scaled, map_map. f_equal. apply map_ext. intros r. apply H.
Qed.

Lemma Forall2_nth {A} (P : A -> A -> Prop) l l' k d d' : Forall2 P l l' -> P d d' -> P (nth k l d) (nth k l' d').
Proof. intros H D. revert k. induction H; intros [|k]; cbn; auto. Qed.

Lemma Forall2_map2 {A B} (P : B -> B -> Prop) (f f' : A -> B) l : (forall a, P (f a) (f' a)) -> Forall2 P (map f l) (map f' l).
Proof. intros H. induction l; cbn; constructor; auto. Qed.

Lemma reduce_scaled srt srtd x t t' sub h h' powers delays cds : (forall c r, scaled_at x t t' (h c r) (h' c r)) ->
  Forall2 (scaled_at x t t') (fst (reduce_nlos srt srtd sub h powers delays cds)) (fst (reduce_nlos srt srtd sub h' powers delays cds)) /\
  snd (reduce_nlos srt srtd sub h powers delays cds) = snd (reduce_nlos srt srtd sub h' powers delays cds).
Proof.
  intros H. unfold reduce_nlos.
  assert (S : forall ind l, Forall2 (scaled_at x t t') (map (sum_rays h ind) l) (map (sum_rays h' ind) l)).
  { intros ind l. apply Forall2_map2. intros c. apply sum_rays_scaled, H. }
  assert (Z : scaled_at x t t' (fun _ _ _ => c0) (fun _ _ _ => c0)) by (intros u s; unfold cmul, c0; cbn; f_equal; ring).
  destruct sub; cbn [fst snd]; (split; [|reflexivity]); apply Forall2_map2; intros k; apply Forall2_nth; try exact Z; [|apply S].
  repeat apply Forall2_app; apply S.
Qed.

Section Link.
Context (w : R) (g : cgen) (T T' : ltopo) (HT : turned_topo w T T').

Lemma entry_turned aoa aoa' aod aod' zoa zod M u s : same_heading aoa' (aoa + w) -> same_heading aod' (aod + w) ->
  field_entry g T' aoa' aod' zoa zod M u s = field_entry g T aoa aod zoa zod M u s.
Proof.
  intros A D. unfold field_entry. rewrite (field_turned w _ _ _ zod aod aod' s (tt_tx _ _ _ HT) D), (field_turned w _ _ _ zoa aoa aoa' u (tt_rx _ _ _ HT) A). reflexivity.
Qed.

Lemma offset_turned aoa aoa' aod aod' zoa zod u s : same_heading aoa' (aoa + w) -> same_heading aod' (aod + w) ->
  array_offset g T' aoa' aod' zoa zod u s = array_offset g T aoa aod zoa zod u s.
Proof.
  intros A D. unfold array_offset.
  rewrite (usv_turned w _ _ _ A), (usv_turned w _ _ _ D), (rot_pos_turned w _ _ _ (tt_tx _ _ _ HT)), (rot_pos_turned w _ _ _ (tt_rx _ _ _ HT)), !vdot_turned.
  reflexivity.
Qed.

(* the path travelled turns with the scene; the satellite's part is the factor x *)
Context (tau tau' : R) (HV : vscale tau' (lt_vel T') = turned w (vscale tau (lt_vel T))).
Let x : cplx := cexpi (2 * PI / cg_lambda g * (added_speed T' * tau' - added_speed T * tau)).

Lemma doppler_turned aoa aoa' aod aod' zoa zod : same_heading aoa' (aoa + w) -> same_heading aod' (aod + w) ->
  doppler g T' aoa' zoa aod' zod tau' = cmul x (doppler g T aoa zoa aod zod tau).
Proof.
  intros A D. unfold doppler, x. rewrite <- cexpi_add. f_equal.
  assert (S : forall r v s, vdot r v * s = vdot r (vscale s v)) by (intros; unfold vdot, vscale; cbn [vx vy vz]; ring).
  assert (E : forall X aoa zoa aod zod t, doppler_exponent g X aoa zoa aod zod t = 2 * PI / cg_lambda g * (vdot (if lt_moving_rx X then unit_sphere_vector zoa aoa else unit_sphere_vector zod aod) (vscale t (lt_vel X)) + added_speed X * t)).
  { intros X a1 z1 a2 z2 t. rewrite <- S. unfold doppler_exponent, added_speed. destruct (Rleb 600000 (lt_bs_height X) && lt_doppler X); destruct (lt_moving_rx X); ring. }
  rewrite !E, HV, (tt_end _ _ _ HT), (usv_turned w _ _ _ A), (usv_turned w _ _ _ D).
  destruct (lt_moving_rx T); rewrite vdot_turned; ring.
Qed.

Lemma cir_turned srt srtd k y y' fs fs' t t' cds ph : INR t / fs = tau -> INR t' / fs' = tau' -> turned_rays w y y' ->
  Forall2 (scaled_at x t t') (fst (cir srt srtd g T k y fs cds ph)) (fst (cir srt srtd g T' k y' fs' cds ph)) /\
  snd (cir srt srtd g T k y fs cds ph) = snd (cir srt srtd g T' k y' fs' cds ph).
Proof.
  intros E E' HY. unfold cir, step_11. rewrite (tr_delays _ _ _ HY), (tr_powers _ _ _ HY), (tt_los _ _ _ HT).
  assert (M : forall a b c e, cmul (cmul (cmul a b) (cmul x c)) e = cmul x (cmul (cmul (cmul a b) c) e)) by (intros; unfold cmul; cbn; f_equal; ring).
  assert (N : forall c r, scaled_at x t t' (nlos_ray g T y (fun i => INR i / fs) ph c r) (nlos_ray g T' y' (fun i => INR i / fs') ph c r)).
  { intros c r u s. unfold nlos_ray. cbv zeta.
    rewrite (tr_zoa _ _ _ HY), (tr_zod _ _ _ HY), (tr_xpr _ _ _ HY), (tr_powers _ _ _ HY), E, E'.
    rewrite (entry_turned (r_aoa y c r) _ (r_aod y c r) _ _ _ _ _ _ (tr_aoa _ _ _ HY c r) (tr_aod _ _ _ HY c r)).
    rewrite (offset_turned (r_aoa y c r) _ (r_aod y c r) _ _ _ _ _ (tr_aoa _ _ _ HY c r) (tr_aod _ _ _ HY c r)).
    rewrite (doppler_turned (r_aoa y c r) _ (r_aod y c r) _ _ _ (tr_aoa _ _ _ HY c r) (tr_aod _ _ _ HY c r)).
    unfold with_faraday. rewrite (tt_h _ _ _ HT). apply M. }
  assert (L : scaled_at x t t' (los_ray g T (fun i => INR i / fs)) (los_ray g T' (fun i => INR i / fs'))).
  { intros u s. unfold los_ray. cbv zeta.
    rewrite (tt_zoa _ _ _ HT), (tt_zod _ _ _ HT), (tt_d3d _ _ _ HT), E, E'.
    rewrite (entry_turned (lt_aoa T) _ (lt_aod T) _ _ _ _ _ _ (tt_aoa _ _ _ HT) (tt_aod _ _ _ HT)).
    rewrite (offset_turned (lt_aoa T) _ (lt_aod T) _ _ _ _ _ (tt_aoa _ _ _ HT) (tt_aod _ _ _ HT)).
    rewrite (doppler_turned (lt_aoa T) _ (lt_aod T) _ _ _ (tt_aoa _ _ _ HT) (tt_aod _ _ _ HT)).
    unfold with_faraday. rewrite (tt_h _ _ _ HT). apply M. }
  destruct (reduce_scaled srt srtd x t t' (cg_sub g) _ _ (r_powers y) (r_delays y) cds N) as [F D].
  destruct (reduce_nlos _ _ _ (nlos_ray g T y _ ph) _ _ _) as [h1 d1]. destruct (reduce_nlos _ _ _ (nlos_ray g T' y' _ ph) _ _ _) as [h2 d2].
  cbn [fst snd] in *. split; [|exact D]. destruct (lt_los T); [|exact F].
  unfold combine_los. destruct F as [|a a' l l' Ha F]; cbn [map]; constructor.
  - intros u s. unfold add_coeff, scale_coeff. rewrite L, Ha. unfold cmul, cadd; cbn; f_equal; ring.
  - clear - F. induction F as [|b b' l l' Hb F IH]; cbn [map]; constructor; [|exact IH]. intros u s. unfold scale_coeff. rewrite Hb. unfold cmul; cbn; f_equal; ring.
Qed.
End Link.

(* ---- geometry ---- *)
Lemma dist_2d_moved w sx sy p q : dist_2d (moved w sx sy p) (moved w sx sy q) = dist_2d p q.
Proof.
  unfold dist_2d, moved, turned, sq; cbn [vx vy vz]. f_equal.
  transitivity ((cos w * cos w + sin w * sin w) * ((vx p - vx q) * (vx p - vx q) + (vy p - vy q) * (vy p - vy q))); [ring|]. rewrite sum_sq. ring.
Qed.

Lemma atan2_moved w sx sy p q : vx p <> vx q \/ vy p <> vy q ->
  same_heading (atan2 (vy (moved w sx sy p) - vy (moved w sx sy q)) (vx (moved w sx sy p) - vx (moved w sx sy q)))
               (atan2 (vy p - vy q) (vx p - vx q) + w).
Proof.
  intros N. destruct (azimuth_polar p q) as [A1 A2]. destruct (azimuth_polar (moved w sx sy p) (moved w sx sy q)) as [B1 B2].
  rewrite dist_2d_moved in B1, B2.
  assert (P : 0 < dist_2d p q).
  { unfold dist_2d. apply sqrt_lt_R0. unfold sq. destruct N as [N|N].
    - assert (0 < Rsqr (vx p - vx q)) by (apply Rsqr_pos_lt; lra). assert (Q := Rle_0_sqr (vy p - vy q)). unfold Rsqr in *. lra.
    - assert (0 < Rsqr (vy p - vy q)) by (apply Rsqr_pos_lt; lra). assert (Q := Rle_0_sqr (vx p - vx q)). unfold Rsqr in *. lra. }
  set (a := atan2 (vy p - vy q) (vx p - vx q)) in *.
  set (a' := atan2 (vy (moved w sx sy p) - vy (moved w sx sy q)) (vx (moved w sx sy p) - vx (moved w sx sy q))) in *.
  unfold moved, turned in B1, B2; cbn [vx vy vz] in B1, B2.
  split; apply (Rmult_eq_reg_l (dist_2d p q)); try lra.
  - rewrite cos_plus, B1. transitivity (dist_2d p q * cos a * cos w - dist_2d p q * sin a * sin w); [rewrite A1, A2; ring|ring].
  - rewrite sin_plus, B2. transitivity (dist_2d p q * sin a * cos w + dist_2d p q * cos a * sin w); [rewrite A1, A2; ring|ring].
Qed.

Lemma atan2_moved_any w sx sy p q : w = 0 \/ vx p <> vx q \/ vy p <> vy q ->
  same_heading (atan2 (vy (moved w sx sy p) - vy (moved w sx sy q)) (vx (moved w sx sy p) - vx (moved w sx sy q)))
               (atan2 (vy p - vy q) (vx p - vx q) + w).
Proof.
  intros [E|N]; [|apply atan2_moved, N]. unfold moved, turned; cbn [vx vy]. rewrite E, cos_0, sin_0, Rplus_0_r.
  replace (0 * vx p + 1 * vy p + sy - (0 * vx q + 1 * vy q + sy)) with (vy p - vy q) by ring.
  replace (1 * vx p - 0 * vy p + sx - (1 * vx q - 0 * vy q + sx)) with (vx p - vx q) by ring. split; reflexivity.
Qed.

Lemma aod_moved w sx sy p q : w = 0 \/ vx p <> vx q \/ vy p <> vy q ->
  same_heading (deg_2_rad (los_aod (moved w sx sy p) (moved w sx sy q))) (deg_2_rad (los_aod p q) + w).
Proof.
  intros N. destruct (atan2_moved_any w sx sy p q N) as [C S]. unfold los_aod, same_heading.
  rewrite cos_plus, sin_plus, !cos_wrap, !sin_wrap, C, S, cos_plus, sin_plus. split; reflexivity.
Qed.

Lemma aoa_moved w sx sy p q : w = 0 \/ vx p <> vx q \/ vy p <> vy q ->
  same_heading (deg_2_rad (los_aoa (moved w sx sy p) (moved w sx sy q))) (deg_2_rad (los_aoa p q) + w).
Proof.
  intros N. destruct (atan2_moved_any w sx sy p q N) as [C S]. unfold los_aoa, same_heading.
  rewrite cos_plus, sin_plus, !cos_wrap, !sin_wrap, !neg_cos, !neg_sin, C, S, cos_plus, sin_plus. split; ring.
Qed.

Lemma zod_moved w sx sy p q : los_zod (moved w sx sy p) (moved w sx sy q) = los_zod p q /\ los_zoa (moved w sx sy p) (moved w sx sy q) = los_zoa p q.
Proof. unfold los_zod, los_zoa. rewrite dist_2d_moved. split; reflexivity. Qed.

Lemma heading_wrap_180 a : same_heading (deg_2_rad (wrap_180 a)) (deg_2_rad a).
Proof.
  destruct (wrap_180_same a) as [k ->]. replace (deg_2_rad (a + 360 * IZR k)) with (deg_2_rad a + 2 * IZR k * PI) by (unfold deg_2_rad; field).
  split; [apply L_Trig.cos_period_Z|apply L_Trig.sin_period_Z].
Qed.

Lemma azimuth_turned w los sp cas cphi a a' pw sg z c r : same_heading (deg_2_rad a') (deg_2_rad a + w) ->
  same_heading (deg_2_rad (azimuth_angle los sp cas cphi a' pw sg z c r)) (deg_2_rad (azimuth_angle los sp cas cphi a pw sg z c r) + w).
Proof.
  intros [C S]. unfold azimuth_angle, azimuth_center. cbv zeta.
  set (x := (sgn (sg c) * azimuth_prime sp cphi pw c + sp / 7 * z c)). set (x0 := if los then _ else 0).
  destruct (heading_wrap_180 (x + a' - x0 + cas * offset r)) as [C1 S1]. destruct (heading_wrap_180 (x + a - x0 + cas * offset r)) as [C2 S2].
  unfold same_heading. rewrite C1, S1, cos_plus, sin_plus, C2, S2, <- cos_plus, <- sin_plus.
  replace (deg_2_rad (x + a' - x0 + cas * offset r)) with (deg_2_rad a' + deg_2_rad (x - x0 + cas * offset r)) by (unfold deg_2_rad; ring).
  replace (deg_2_rad (x + a - x0 + cas * offset r) + w) with ((deg_2_rad a + w) + deg_2_rad (x - x0 + cas * offset r)) by (unfold deg_2_rad; ring).
  rewrite (cos_plus (deg_2_rad a')), (sin_plus (deg_2_rad a')), C, S, (cos_plus (deg_2_rad a + w)), (sin_plus (deg_2_rad a + w)). split; reflexivity.
Qed.

(* ---- the rays of a link whose azimuths turn ---- *)
Lemma link_rays_turned w srt n los indoor height lp mu off mask x d d' g g' b b' s u :
  rd_x d b s u = rd_x d' b' s u -> rd_shadow d b s u = rd_shadow d' b' s u -> rd_xpr d b s u = rd_xpr d' b' s u ->
  (forall f, f = rd_aoa \/ f = rd_aod \/ f = rd_zoa \/ f = rd_zod ->
     ad_sign (f d) b s = ad_sign (f d') b' s /\ ad_comp (f d) b s u = ad_comp (f d') b' s u /\ ad_mix (f d) b s = ad_mix (f d') b' s) ->
  same_heading (deg_2_rad (g_aoa g' b' s u)) (deg_2_rad (g_aoa g b s u) + w) ->
  same_heading (deg_2_rad (g_aod g' b' s u)) (deg_2_rad (g_aod g b s u) + w) ->
  g_zoa g' b' s u = g_zoa g b s u -> g_zod g' b' s u = g_zod g b s u ->
  match link_rays srt n los indoor height lp mu off g b s u mask x d, link_rays srt n los indoor height lp mu off g' b' s u mask x d' with
  | Some y, Some y' => turned_rays w y y'
  | None, None => True
  | _, _ => False
  end.
Proof.
  intros X1 X2 X3 AN A D Z1 Z2. unfold link_rays. cbv zeta. rewrite <- X1, <- X2, <- X3.
  destruct (cluster_powers _ _ _ _ _ _ _) as [powers|]; [|exact I].
  destruct (AN rd_aoa ltac:(tauto)) as (N1 & N2 & N3). destruct (AN rd_aod ltac:(tauto)) as (N4 & N5 & N6).
  destruct (AN rd_zoa ltac:(tauto)) as (N7 & N8 & N9). destruct (AN rd_zod ltac:(tauto)) as (N10 & N11 & N12).
  rewrite <- N1, <- N2, <- N3, <- N4, <- N5, <- N6, <- N7, <- N8, <- N9, <- N10, <- N11, <- N12, Z1, Z2.
  constructor; cbn [r_delays r_powers r_aoa r_aod r_zoa r_zod r_xpr]; try reflexivity.
  - intros c r. unfold shuffle. apply azimuth_turned, A.
  - intros c r. unfold shuffle. apply azimuth_turned, D.
Qed.

(* everything the two theorems below need, for two scenario objects that differ at most in the Doppler switch *)
Lemma scene_core : forall srt srtd ua ba sc sc' f al ops ops' a a' dr dr' z z' fs fs' d d' w sx sy m b b',
  constructed sc -> constructed sc' -> sc' = with_doppler f sc -> settled sc al ops a dr z -> settled sc' al ops' a' dr' z' ->
  let c := chan_run sc al (chan_init sc) ops in
  let c' := chan_run sc' al (chan_init sc') ops' in
  moved_still w sx sy m b b' (c_st c) (c_st c') -> same_topo_draws m b b' dr dr' ->
  (if al then same_lsp_draws m b b' (cd_lsp d) (cd_lsp d') else same_lsp_draws m b b' z z') ->
  same_call_draws (sc_dir sc) m b b' (undirected d) (undirected d') ->
  exists o o', chan_call srt srtd sc ua ba al c fs d = Ok o /\ chan_call srt srtd sc' ua ba al c' fs' d' = Ok o' /\
    forall bs vel vel' is u iu p t t', (u < m)%nat -> w = 0 \/ off_nadir (c_st c) b u ->
      s_bs_loc (c_st c) = Some bs -> s_ut_vel (c_st c) = Some vel -> s_ut_vel (c_st c') = Some vel' ->
      let tau := INR t / fs in let tau' := INR t' / fs' in
      vscale tau' (t_at vel' b' u) = turned w (vscale tau (t_at vel b u)) ->
      let h := vz (t_at bs 0%nat 0%nat) in
      let x := cexpi (carrier_phase sc (closing_speed sc' h (cd_dir d' b') * tau' - closing_speed sc h (cd_dir d b) * tau)) in
      link_coefficient (sc_dir sc) o' b' 0 is u iu p t' = option_map (cmul x) (link_coefficient (sc_dir sc) o b 0 is u iu p t) /\
      link_delay (sc_dir sc) o' b' 0 u p = link_delay (sc_dir sc) o b 0 u p.
Proof.
  intros srt srtd ua ba sc sc' f al ops ops' a a' dr dr' z z' fs fs' d d' w sx sy m b b' Hc Hc' ESC Hs Hs' c c' SE TD LD CD.
  destruct (call_defined srt srtd ua ba _ _ _ _ _ _ fs d Hc Hs) as [o O]. destruct (call_defined srt srtd ua ba _ _ _ _ _ _ fs' d' Hc' Hs') as [o' O'].
  fold c in O. fold c' in O'. exists o, o'. split; [exact O|]. split; [exact O'|].
  destruct (settled_content _ _ _ _ _ _ Hc Hs) as (ut & bs & ind & p & g & los & cl & cn & ls & pl & Lx & Ls &
    A1 & A2 & A3 & A4 & A5 & A6 & A7 & A8 & A9 & A10 & A11 & A12 & A13 & A14 & A15 & A16 & A17 & A18 & A19 & A20 & A21 & A22 & A23 & A24).
  destruct (settled_content _ _ _ _ _ _ Hc' Hs') as (ut' & bs' & ind' & p' & g' & los' & cl' & cn' & ls' & pl' & Lx' & Ls' &
    B1 & B2 & B3 & B4 & B5 & B6 & B7 & B8 & B9 & B10 & B11 & B12 & B13 & B14 & B15 & B16 & B17 & B18 & B19 & B20 & B21 & B22 & B23 & B24).
  fold c in A1, A2, A3, A7, A10, A11, A14, A16, A18, A19, A20, A23, A24. fold c' in B1, B2, B3, B7, B10, B11, B14, B16, B18, B19, B20, B23, B24.
  assert (SDIR : sc_dir sc' = sc_dir sc) by (rewrite ESC; reflexivity).
  rewrite ESC in B6, B8, B12, B13, B17. change (documented_value (sc_env sc) (sc_fc sc) (sc_dir sc) (sc_elev sc) true "LoS_p" (Fin p')) in B6.
  change (link_column sc true = Ok cl') in B12. change (link_column sc false = Ok cn') in B13.
  change (compute_pathlosses sc (set_weather no_weather) (fun _ _ _ => slant_range (sc_elev sc) (vz (t_at bs' 0%nat 0%nat))) los' (dr_z_los dr') (dr_z_nlos dr') = Ok pl') in B17.
  cbn [with_doppler sc_elev] in B8.
  assert (p' = p) by (assert (Q := documented_value_fun _ _ _ _ _ _ _ _ A6 B6); congruence). subst p'.
  assert (cl' = cl) by congruence. subst cl'. assert (cn' = cn) by congruence. subst cn'.
  destruct (me_ut_loc _ _ _ _ _ _ _ _ SE) as (v & v' & Q1 & Q2 & U1 & U2 & U3 & U4 & U5).
  assert (v = ut) by congruence. subst v. assert (v' = ut') by congruence. subst v'. clear Q1 Q2.
  destruct (me_ut_in _ _ _ _ _ _ _ _ SE) as (v & v' & Q1 & Q2 & _ & _ & _ & _ & I5).
  assert (v = ind) by congruence. subst v. assert (v' = ind') by congruence. subst v'. clear Q1 Q2.
  destruct (me_bs_loc _ _ _ _ _ _ _ _ SE) as (v & v' & Q1 & Q2 & _ & _ & _ & _ & S5).
  assert (v = bs) by congruence. subst v. assert (v' = bs') by congruence. subst v'. clear Q1 Q2. specialize (S5 0%nat ltac:(lia)).
  assert (AL := me_altitude _ _ _ _ _ _ _ _ SE _ _ A2 B2).
  assert (LOS : forall u, (u < m)%nat -> los b 0%nat u = los' b' 0%nat u).
  { intros u Hu. rewrite A11, B11. unfold sample_los. rewrite (me_los _ _ _ _ _ _ _ _ SE), (td_los _ _ _ _ _ TD u Hu), (I5 u Hu). reflexivity. }
  assert (COL : ls_col ls = ls_col ls') by (rewrite A15, B15; reflexivity).
  (* large scale parameters *)
  assert (LSP : forall x x' l l', same_lsp_draws m b b' x x' -> sample_lsp (c_st c) (t_num ut) Lx Ls x = Ok l -> sample_lsp (c_st c') (t_num ut') Lx' Ls' x' = Ok l' ->
    forall u, (u < m)%nat -> l b 0%nat u = l' b' 0%nat u).
  { intros x x' l l' SD E E' u Hu. unfold sample_lsp in E, E'. rewrite A14 in E. rewrite B14 in E'. injection E as <-. injection E' as <-.
    assert (M1 : ls_mean ls b 0%nat u = ls_mean ls' b' 0%nat u) by (rewrite A15, B15; cbn [ls_mean]; rewrite (LOS u Hu); reflexivity).
    assert (M2 : ls_std ls b 0%nat u = ls_std ls' b' 0%nat u) by (rewrite A15, B15; cbn [ls_std]; rewrite (LOS u Hu); reflexivity).
    rewrite M1, M2. apply make_lsp_ext. intros i Hi. unfold spatially_filtered.
    pose proof (A22 b i U1 Hi) as Y. pose proof (B22 b' i U2 Hi) as Y'.
    rewrite (sumR_prefix (t_num ut) _ m U3) by (intros k Hk; rewrite (cholesky_lower _ _ _ Y) by lia; ring).
    rewrite (sumR_prefix (t_num ut') _ m U4) by (intros k Hk; rewrite (cholesky_lower _ _ _ Y') by lia; ring).
    apply sumR_ext. intros k Hk. f_equal.
    - unfold cross_filtered. pose proof (A21 b k U1 ltac:(lia)) as W. pose proof (B21 b' k U2 ltac:(lia)) as W'.
      rewrite COL, (LOS k Hk) in W. assert (EL : Lx b 0%nat k = Lx' b' 0%nat k) by congruence. rewrite EL.
      apply sumR_ext. intros j Hj. rewrite (SD k j Hk). reflexivity.
    - refine (cholesky_prefix m _ _ _ _ _ _ U3 U4 _ Y Y' u k Hu). intros i' j' Hi' Hj'. unfold spatial_corr, pair_filter.
      rewrite A9, B9, COL, (LOS i' Hi'), (LOS j' Hj'), (I5 i' Hi'), (I5 j' Hj'), (U5 i' Hi'), (U5 j' Hj'), dist_2d_moved. reflexivity. }
  intros bs0 vel0 vel0' is u iu q t t' Hu OFF0 EB EV EV' tau tau' MV.
  assert (bs0 = bs) by congruence. subst bs0. set (h := vz (t_at bs 0%nat 0%nat)). cbv zeta.
  assert (OFF : w = 0 \/ vx (t_at ut b u) <> vx (t_at bs b 0%nat) \/ vy (t_at ut b u) <> vy (t_at bs b 0%nat)) by (destruct OFF0 as [Q|Q]; [left; exact Q|right; apply Q; assumption]).
  destruct (C31_axes_l _ _ _ _ _ _ _ _ _ _ O) as (lsps & mask & rr & vel & uo & bo & bs1 & g1 & los1 & ls1 & pl1 & D1 & D2 & D3 & D4 & D5 & D6 & D7 & D8 & D9 & D10 & D11 & D12 & D13).
  destruct (C31_axes_l _ _ _ _ _ _ _ _ _ _ O') as (lsps' & mask' & rr' & vel' & uo' & bo' & bs1' & g1' & los1' & ls1' & pl1' & F1 & F2 & F3 & F4 & F5 & F6 & F7 & F8 & F9 & F10 & F11 & F12 & F13).
  assert (bs1 = bs) by congruence. subst bs1. assert (g1 = g) by congruence. subst g1. assert (los1 = los) by congruence. subst los1. assert (ls1 = ls) by congruence. subst ls1.
  assert (bs1' = bs') by congruence. subst bs1'. assert (g1' = g') by congruence. subst g1'. assert (los1' = los') by congruence. subst los1'. assert (ls1' = ls') by congruence. subst ls1'.
  assert (vel0 = vel) by congruence. subst vel0. assert (vel0' = vel') by congruence. subst vel0'.
  assert (LE : lsps b 0%nat u = lsps' b' 0%nat u).
  { unfold used_lsps in D1, F1. destruct al.
    - unfold lsp_sampler in D1, F1. rewrite A1, A18, A19 in D1. rewrite B1, B18, B19 in F1. exact (LSP _ _ _ _ LD D1 F1 u Hu).
    - destruct (A23 eq_refl) as (l & Q1 & Q2). destruct (B23 eq_refl) as (l' & Q1' & Q2').
      assert (l = lsps) by congruence. assert (l' = lsps') by congruence. subst l l'. exact (LSP _ _ _ _ LD Q1 Q1' u Hu). }
  assert (GD : g_d3d g' b' 0%nat u = g_d3d g b 0%nat u).
  { destruct (A8 b 0%nat u) as (E1 & _). destruct (B8 b' 0%nat u) as (E1' & _). rewrite AL in E1. congruence. }
  assert (GZ : g_zoa g' b' 0%nat u = g_zoa g b 0%nat u /\ g_zod g' b' 0%nat u = g_zod g b 0%nat u).
  { destruct (A8 b 0%nat u) as (_ & _ & _ & E4 & E5). destruct (B8 b' 0%nat u) as (_ & _ & _ & E4' & E5').
    rewrite E4, E5, E4', E5', (U5 u Hu), S5. destruct (zod_moved w sx sy (t_at ut b u) (t_at bs b 0%nat)). split; assumption. }
  assert (GA : same_heading (deg_2_rad (g_aoa g' b' 0%nat u)) (deg_2_rad (g_aoa g b 0%nat u) + w) /\
               same_heading (deg_2_rad (g_aod g' b' 0%nat u)) (deg_2_rad (g_aod g b 0%nat u) + w)).
  { destruct (A8 b 0%nat u) as (_ & E2 & E3 & _). destruct (B8 b' 0%nat u) as (_ & E2' & E3' & _).
    rewrite E2, E3, E2', E3', (U5 u Hu), S5. split; [apply aoa_moved, OFF|apply aod_moved, OFF]. }
  destruct GZ as [GZ1 GZ2]. destruct GA as [GA1 GA2].
  assert (RE : match rr b 0%nat u, rr' b' 0%nat u with Some y, Some y' => turned_rays w y y' | None, None => True | _, _ => False end).
  { unfold gen_rays in D3, F3. rewrite A14, A10, A7, A3, A2 in D3. rewrite B14, B10, B7, B3, B2 in F3. injection D3 as <-. injection F3 as <-.
    assert (mask = fun b s u => cluster_mask (n_clusters ls true) (n_clusters ls false) (t_at ind b u) (los b s u)) by congruence. subst mask.
    assert (mask' = fun b s u => cluster_mask (n_clusters ls' true) (n_clusters ls' false) (t_at ind' b u) (los' b s u)) by congruence. subst mask'.
    unfold num_clusters_max, n_clusters, satellite_height. rewrite COL, (LOS u Hu), (I5 u Hu), AL, LE.
    replace (ls_mean ls b 0%nat u 6%nat) with (ls_mean ls' b' 0%nat u 6%nat) by (rewrite A15, B15; cbn [ls_mean]; rewrite (LOS u Hu); reflexivity).
    replace (ls_zod_offset ls b 0%nat u) with (ls_zod_offset ls' b' 0%nat u)
      by (rewrite A15, B15; cbn [ls_zod_offset]; rewrite (LOS u Hu), (U5 u Hu), S5, dist_2d_moved; reflexivity).
    destruct CD as [X1 X2 X3 X4 X5 X6 X7 X8 X9].
    assert (AN : forall e e', same_angle_draws m b b' e e' -> ad_sign e b 0%nat = ad_sign e' b' 0%nat /\ ad_comp e b 0%nat u = ad_comp e' b' 0%nat u /\ ad_mix e b 0%nat = ad_mix e' b' 0%nat).
    { intros e e' [H1 H2 H3]. split; [extensionality c9; apply H1|]. split; [extensionality c9; apply H2, Hu|]. extensionality c9; extensionality r9; apply H3. }
    apply link_rays_turned; try assumption.
    - extensionality c9; apply X1, Hu.
    - extensionality c9; apply X2, Hu.
    - extensionality c9; extensionality r9; apply X7, Hu.
    - intros fd [->|[->|[->| ->]]]; apply AN; assumption. }
  specialize (D13 b 0%nat u). specialize (F13 b' 0%nat u). cbv zeta in D13, F13. rewrite LE, COL, (LOS u Hu) in D13.
  rewrite ESC in F13, F12. cbn [with_doppler sc_dir sc_pathloss sc_shadow] in F13, F12. rewrite <- ESC in F13.
  change (down_arrays sc' ua ba) with (down_arrays sc' ua ba) in F13.
  replace (down_arrays sc' ua ba) with (down_arrays sc ua ba) in F13 by (rewrite ESC; reflexivity).
  set (L := down_link sc (c_st c) vel uo bo bs g los (cd_dir d) b 0 u) in *.
  set (L' := down_link sc' (c_st c') vel' uo' bo' bs' g' los' (cd_dir d') b' 0 u) in *.
  assert (TE : turned_topo w L L').
  { unfold L, L', down_link. constructor; cbn [lt_vel lt_moving_rx lt_aoa lt_aod lt_zoa lt_zod lt_los lt_d3d lt_tx_ori lt_rx_ori lt_bs_height lt_doppler lt_sat_speed].
    - reflexivity.
    - exact GA1.
    - exact GA2.
    - rewrite GZ1; reflexivity.
    - rewrite GZ2; reflexivity.
    - symmetry; apply LOS, Hu.
    - exact GD.
    - exact (me_bs_ori _ _ _ _ _ _ _ _ SE _ _ D6 F6).
    - exact (me_ut_ori _ _ _ _ _ _ _ _ SE _ _ u D5 F5 Hu).
    - symmetry; exact AL. }
  assert (X : 2 * PI / cg_lambda (down_arrays sc ua ba) * (added_speed L' * tau' - added_speed L * tau) =
              carrier_phase sc (closing_speed sc' h (cd_dir d' b') * tau' - closing_speed sc h (cd_dir d b) * tau)).
  { assert (AS : forall k kk (bb : nat) (dd : nat -> R) (e : s_doppler kk = sc_doppler k), (if Rleb 600000 h && s_doppler kk then topology_sat_speed h (sc_elev k) (dd bb) else 0) = closing_speed k h (dd bb)).
    { intros k kk bb dd e. unfold closing_speed. rewrite e. unfold Rleb. destruct (Rle_dec 600000 h); [|reflexivity]. cbn [andb].
      destruct (sc_doppler k); [|reflexivity]. unfold topology_sat_speed. replace (sc_elev k * (PI / 180)) with (sc_elev k / 180 * PI) by field. ring. }
    unfold added_speed, L, L', down_link; cbn [lt_bs_height lt_doppler lt_sat_speed]. rewrite <- AL. fold h.
    rewrite (AS sc (c_st c) b (cd_dir d) A24), (AS sc' (c_st c') b' (cd_dir d') B24).
    unfold carrier_phase, cg_lambda, down_arrays, speed_of_light; cbn [cg_fc].
    assert (P : 0 < sc_fc sc) by (destruct (ac_band sc (constructed_accepted sc Hc)) as [[? ?]|[? ?]]; lra). field. lra. }
  assert (PL : (if sc_pathloss sc then Rpower 10 (- pl1 b 0%nat u / 20) else 1) = (if sc_pathloss sc then Rpower 10 (- pl1' b' 0%nat u / 20) else 1)).
  { destruct (sc_pathloss sc); [|reflexivity]. specialize (D12 eq_refl). specialize (F12 eq_refl).
    unfold sample_pathloss in D12, F12. rewrite A16 in D12. rewrite B16 in F12. injection D12 as <-. injection F12 as <-.
    rewrite AL in A17. unfold compute_pathlosses in A17, B17.
    destruct (clutter_loss sc) as [clv|]; cbn [bind] in A17, B17; [|discriminate].
    destruct (num_of clv) as [cv|]; cbn [bind] in A17, B17; [|discriminate].
    destruct (sigma_sf_los sc) as [slv|]; cbn [bind] in A17, B17; [|discriminate].
    destruct (num_of slv) as [sv|]; cbn [bind] in A17, B17; [|discriminate].
    destruct (sigma_sf_nlos sc) as [snv|]; cbn [bind] in A17, B17; [|discriminate].
    destruct (num_of snv) as [nv|]; cbn [bind] in A17, B17; [|discriminate].
    injection A17 as <-. injection B17 as <-. cbn [pl_b pl_g pl_s pl_e].
    rewrite (LOS u Hu), (td_z_los _ _ _ _ _ TD u Hu), (td_z_nlos _ _ _ _ _ TD u Hu). reflexivity. }
  rewrite PL in D13.
  assert (PH := cs_phase _ _ _ _ _ _ CD u).
  set (F := (if sc_pathloss sc then _ else 1) * _) in D13, F13.
  destruct (rr b 0%nat u) as [y|], (rr' b' 0%nat u) as [y'|]; try contradiction.
  - destruct (D13 is iu q t) as [Z1 Z2]. destruct (F13 is iu q t') as [W1 W2]. destruct (turned_swap _ _ _ _ _ TE RE) as [TE' RE'].
    assert (NE : forall G i j l l' x, x = cexpi (2 * PI / cg_lambda G * (added_speed L' * tau' - added_speed L * tau)) -> Forall2 (scaled_at x t t') l l' ->
      option_map (fun y0 => cmul y0 (creal F)) (option_map (fun h0 : coeff => h0 i j t') (nth_error l' q)) =
      option_map (cmul x) (option_map (fun y0 => cmul y0 (creal F)) (option_map (fun h0 : coeff => h0 i j t) (nth_error l q)))).
    { intros G i j l l' x _ FF. clear - FF. revert q. induction FF as [|h0 h0' l l' H0 FF IH]; intros [|q]; cbn; try reflexivity; [|apply IH].
      rewrite H0. f_equal. unfold cmul; cbn; f_equal; ring. }
    destruct (String.eqb (sc_dir sc) "uplink").
    + assert (PE : cd_phase d b u 0%nat = cd_phase d' b' u 0%nat) by (extensionality c9; extensionality r9; extensionality k9; apply PH, Hu).
      rewrite PE in Z1, Z2.
      destruct (cir_turned w (swap_gen (down_arrays sc ua ba)) _ _ TE' tau tau' MV srt srtd (l_k (lsps' b' 0%nat u)) _ _ fs fs' t t'
        (lp_cDS (ls_col ls' (los' b' 0%nat u)) * 1e-9) (cd_phase d' b' u 0%nat) eq_refl eq_refl RE') as [FF DD].
      change (added_speed (swap_topo L')) with (added_speed L') in FF. change (added_speed (swap_topo L)) with (added_speed L) in FF.
      change (cg_lambda (swap_gen (down_arrays sc ua ba))) with (cg_lambda (down_arrays sc ua ba)) in FF. rewrite X in FF.
      split; [|congruence]. rewrite W2, Z2. apply (NE (down_arrays sc ua ba)); [rewrite X; reflexivity|exact FF].
    + assert (PE : cd_phase d b 0%nat u = cd_phase d' b' 0%nat u) by (extensionality c9; extensionality r9; extensionality k9; apply PH, Hu).
      rewrite PE in Z1, Z2.
      destruct (cir_turned w (down_arrays sc ua ba) _ _ TE tau tau' MV srt srtd (l_k (lsps' b' 0%nat u)) _ _ fs fs' t t'
        (lp_cDS (ls_col ls' (los' b' 0%nat u)) * 1e-9) (cd_phase d' b' 0%nat u) eq_refl eq_refl RE) as [FF DD].
      rewrite X in FF.
      split; [|congruence]. rewrite W2, Z2. apply (NE (down_arrays sc ua ba)); [rewrite X; reflexivity|exact FF].
  - destruct (D13 is iu q t) as [Z1 Z2]. destruct (F13 is iu q t') as [W1 W2]. rewrite Z1, Z2, W1, W2. split; reflexivity.
Qed.

Lemma with_doppler_same sc : sc = with_doppler (sc_doppler sc) sc.
Proof. destruct sc; reflexivity. Qed.

Lemma undirect dir m b b' d d' : same_call_draws dir m b b' d d' -> same_call_draws dir m b b' (undirected d) (undirected d').
Proof. intros []. constructor; cbn; try assumption. reflexivity. Qed.

Lemma option_map_one (q : option cplx) : option_map (cmul (cexpi 0)) q = q.
Proof. destruct q as [[re im]|]; [|reflexivity]. cbn. unfold cexpi, cmul; cbn. rewrite cos_0, sin_0. do 2 f_equal; ring. Qed.

Lemma C91_l : forall srt srtd ua ba sc al ops ops' a a' dr dr' z z' fs d d' w sx sy m b b',
  constructed sc -> settled sc al ops a dr z -> settled sc al ops' a' dr' z' ->
  let c := chan_run sc al (chan_init sc) ops in
  let c' := chan_run sc al (chan_init sc) ops' in
  moved_example w sx sy m b b' (c_st c) (c_st c') -> same_topo_draws m b b' dr dr' ->
  (if al then same_lsp_draws m b b' (cd_lsp d) (cd_lsp d') else same_lsp_draws m b b' z z') ->
  same_call_draws (sc_dir sc) m b b' d d' ->
  exists o o', chan_call srt srtd sc ua ba al c fs d = Ok o /\ chan_call srt srtd sc ua ba al c' fs d' = Ok o' /\
    forall is u iu p t, (u < m)%nat -> w = 0 \/ off_nadir (c_st c) b u ->
      link_coefficient (sc_dir sc) o b 0 is u iu p t = link_coefficient (sc_dir sc) o' b' 0 is u iu p t /\
      link_delay (sc_dir sc) o b 0 u p = link_delay (sc_dir sc) o' b' 0 u p.
Proof.
  intros srt srtd ua ba sc al ops ops' a a' dr dr' z z' fs d d' w sx sy m b b' Hc Hs Hs' c c' SE TD LD CD.
  destruct (scene_core srt srtd ua ba sc sc (sc_doppler sc) al ops ops' a a' dr dr' z z' fs fs d d' w sx sy m b b' Hc Hc (with_doppler_same sc) Hs Hs'
    (me_still _ _ _ _ _ _ _ _ SE) TD LD (undirect _ _ _ _ _ _ CD)) as (o & o' & O & O' & M). fold c in O, M. fold c' in O', M.
  exists o, o'. split; [exact O|]. split; [exact O'|]. intros is u iu p t Hu OFF.
  destruct (C31_axes_l _ _ _ _ _ _ _ _ _ _ O) as (_ & _ & _ & vel & _ & _ & bs & _ & _ & _ & _ & _ & _ & _ & D4 & _ & _ & D7 & _).
  destruct (C31_axes_l _ _ _ _ _ _ _ _ _ _ O') as (_ & _ & _ & vel' & _ & _ & _ & _ & _ & _ & _ & _ & _ & _ & F4 & _).
  destruct (M bs vel vel' is u iu p t t Hu OFF D7 D4 F4) as [H1 H2].
  - rewrite (me_ut_vel _ _ _ _ _ _ _ _ SE _ _ u D4 F4 Hu). unfold vscale, turned; cbn [vx vy vz]. f_equal; ring.
  - rewrite (cs_dir _ _ _ _ _ _ CD), Rminus_eq_0 in H1. unfold carrier_phase in H1. rewrite Rmult_0_r in H1. unfold Rdiv in H1. rewrite Rmult_0_l, option_map_one in H1.
    split; congruence.
Qed.

Lemma moved_apart w sx sy p q : vx p <> vx q \/ vy p <> vy q ->
  vx (moved w sx sy p) <> vx (moved w sx sy q) \/ vy (moved w sx sy p) <> vy (moved w sx sy q).
Proof.
  intros N. destruct (Req_dec (vx (moved w sx sy p)) (vx (moved w sx sy q))) as [E1|E1]; [|left; exact E1].
  right. intros E2. unfold moved, turned in E1, E2; cbn [vx vy vz] in E1, E2.
  assert (A : cos w * (vx p - vx q) = sin w * (vy p - vy q)) by lra. assert (B : sin w * (vx p - vx q) = - (cos w * (vy p - vy q))) by lra.
  assert (Q := sum_sq w).
  assert (X : vx p - vx q = 0).
  { transitivity ((cos w * cos w + sin w * sin w) * (vx p - vx q)); [rewrite Q; ring|].
    transitivity (cos w * (cos w * (vx p - vx q)) + sin w * (sin w * (vx p - vx q))); [ring|]. rewrite A, B. ring. }
  assert (Y : vy p - vy q = 0).
  { transitivity ((cos w * cos w + sin w * sin w) * (vy p - vy q)); [rewrite Q; ring|].
    transitivity (sin w * (sin w * (vy p - vy q)) + cos w * (cos w * (vy p - vy q))); [ring|]. rewrite <- A. replace (cos w * (vy p - vy q)) with (- (sin w * (vx p - vx q))) by lra. ring. }
  destruct N as [N|N]; apply N; lra.
Qed.

Lemma C91_whole_l : forall sc al ut bs uo bo vel ind l dr z w sx sy, constructed sc ->
  let a := full_args ut bs uo bo vel ind l in
  let a1 := full_args (moved_nodes w sx sy ut) (moved_nodes w sx sy bs) (turned_bearings w uo) (turned_bearings w bo) (turned_nodes w vel) ind l in
  let run a := chan_set_topology sc al (chan_init sc) a dr z in
  snd (run a) = Ok tt ->
  snd (run a1) = Ok tt /\
  forall srt srtd ua ba fs d, exists o o1,
    chan_call srt srtd sc ua ba al (fst (run a)) fs d = Ok o /\
    chan_call srt srtd sc ua ba al (fst (run a1)) fs d = Ok o1 /\
    forall b is u iu p t, (b < t_batch ut)%nat -> (u < t_num ut)%nat ->
      w = 0 \/ vx (t_at ut b u) <> vx (t_at bs b 0%nat) \/ vy (t_at ut b u) <> vy (t_at bs b 0%nat) ->
      link_coefficient (sc_dir sc) o b 0 is u iu p t = link_coefficient (sc_dir sc) o1 b 0 is u iu p t /\
      link_delay (sc_dir sc) o b 0 u p = link_delay (sc_dir sc) o1 b 0 u p.
Proof.
  intros sc al ut bs uo bo vel ind l dr z w sx sy Hc a a1 run H. subst run. cbv beta in *.
  assert (Ha := constructed_accepted sc Hc).
  assert (CH : changes_topology a) by (left; discriminate). assert (CH1 : changes_topology a1) by (left; discriminate).
  destruct (chan_set_topology sc al (chan_init sc) a dr z) as [c r] eqn:EC. cbn [snd] in H. subst r. cbn [fst].
  destruct (change_ok _ _ _ _ _ _ _ EC CH) as (ST & _).
  destruct (update_content _ _ _ _ _ Ha ST) as (ut' & bs' & ind' & p & X1 & X2 & X3 & X4 & X5 & X6 & X7 & X8 & X9 & _ & _ & _ & (los & L1 & L2 & _) & _).
  assert (EQ : ut' = ut /\ bs' = bs /\ ind' = ind).
  { destruct (step_cases _ _ _ _ _ _ Ha ST) as [(_ & _ & [k Hk]) | (_ & _ & II & _)]; [discriminate|];
       destruct II as (I1 & I2 & I3 & I4 & I5 & I6 & I7 & I8); cbn in I1, I2, I6. repeat split; congruence. }
  destruct EQ as (-> & -> & ->).
  destruct (full_call sc (init_state sc) ut bs uo bo vel ind l no_weather None dr Ha) as (st9 & Q0 & Q1 & Q2 & Q3 & Q4 & Q5 & Q6); try congruence; try lia.
  assert (st9 = c_st c) by (change (channel_args a) with a in ST; change (c_st (chan_init sc)) with (init_state sc) in ST; unfold a, full_args in ST; congruence).
  subst st9.
  destruct (full_call sc (init_state sc) (moved_nodes w sx sy ut) (moved_nodes w sx sy bs) (turned_bearings w uo) (turned_bearings w bo) (turned_nodes w vel) ind l no_weather None dr Ha)
    as (st1 & R0 & R1 & R2 & R3 & R4 & R5 & R6); cbn [moved_nodes t_batch t_num]; try congruence; try lia.
  change {| a_ut_loc := _; a_bs_loc := _; a_ut_ori := _; a_bs_ori := _; a_ut_vel := _; a_in := _; a_los := _; a_weather := _; a_doppler := _ |} with a1 in R0.
  assert (REQ : s_req_los (c_st c) = l /\ s_req_los st1 = l).
  { split.
    - destruct (step_cases _ _ _ _ _ _ Ha ST) as [(_ & _ & [k Hk]) | (_ & _ & II & _)]; [discriminate|].
      destruct II as (I1 & I2 & I3 & I4 & I5 & I6 & I7 & I8). rewrite I7. cbn. destruct l; reflexivity.
    - destruct (step_cases _ _ _ _ _ _ Ha R0) as [(_ & _ & [k Hk]) | (_ & _ & II & _)]; [discriminate|].
      destruct II as (I1 & I2 & I3 & I4 & I5 & I6 & I7 & I8). rewrite I7. cbn. destruct l; reflexivity. }
  assert (OK1 : snd (chan_set_topology sc al (chan_init sc) a1 dr z) = Ok tt).
  { destruct (C68_l sc al (chan_init sc) a1 dr z st1 Hc R0) as (ut2 & ind2 & los2 & Y1 & Y2 & Y3 & Iff1). apply Iff1.
    assert (ut2 = moved_nodes w sx sy ut) by congruence. assert (ind2 = ind) by congruence. subst ut2 ind2.
    destruct (C68_l sc al (chan_init sc) a dr z (c_st c) Hc ST) as (ut3 & ind3 & los3 & Y4 & Y5 & Y6 & Iff).
    assert (ut3 = ut) by congruence. assert (ind3 = ind) by congruence. assert (los3 = los) by congruence. subst ut3 ind3 los3.
    destruct (update_content _ _ _ _ _ Ha R0) as (ut4 & bs4 & ind4 & p4 & V1 & V2 & V3 & _ & _ & _ & _ & _ & V9 & _ & _ & _ & (los4 & W1 & W2 & _) & _).
    assert (ind4 = ind) by congruence. assert (LL : los2 = los4) by congruence. subst ind4.
    assert (p4 = p) by (assert (Q := documented_value_fun _ _ _ _ _ _ _ _ V9 X9); congruence). subst p4.
    assert (LE : los2 = los) by (rewrite LL, W2, L2, (proj1 REQ), (proj2 REQ); reflexivity).
    rewrite EC in Iff. destruct Iff as [Iff _]. specialize (Iff eq_refl).
    intros b0 u u' Hb0 Hu Hu' N SS. rewrite LE in SS. cbn [moved_nodes t_batch t_num t_at] in *.
    apply moved_apart, (Iff b0 u u'); assumption. }
  split; [exact OK1|]. intros srt srtd ua ba fs d.
  destruct (settled_now sc al a dr z CH) as [SE ER]; [rewrite EC; reflexivity|].
  destruct (settled_now sc al a1 dr z CH1 OK1) as [SE1 ER1].
  assert (E1 : c_st (fst (chan_set_topology sc al (chan_init sc) a1 dr z)) = st1).
  { destruct (chan_set_topology sc al (chan_init sc) a1 dr z) as [c1 r1] eqn:EC1. cbn [snd] in OK1. subst r1.
    destruct (change_ok _ _ _ _ _ _ _ EC1 CH1) as (ST1 & _). cbn [fst]. change (channel_args a1) with a1 in ST1.
    change (c_st (chan_init sc)) with (init_state sc) in ST1. congruence. }
  destruct (call_defined srt srtd ua ba _ _ _ _ _ _ fs d Hc SE) as [o O]. destruct (call_defined srt srtd ua ba _ _ _ _ _ _ fs d Hc SE1) as [o1 O1].
  rewrite ER, EC in O. cbn [fst] in O. rewrite ER1 in O1. exists o, o1. split; [exact O|]. split; [exact O1|].
  intros b is u iu q t Hb Hu N.
  pose proof (C91_l srt srtd ua ba sc al _ _ a a1 dr dr z z fs d d w sx sy (t_num ut) b b Hc SE SE1) as MAIN.
  cbv zeta in MAIN. rewrite ER, ER1, EC in MAIN. cbn [fst] in MAIN. rewrite E1 in MAIN.
  destruct MAIN as (o2 & o3 & O2 & O3 & M).
  - split; [constructor|].
    + exists ut, (moved_nodes w sx sy ut). cbn. repeat split; auto; lia.
    + exists ind, ind. repeat split; auto; lia.
    + exists bs, (moved_nodes w sx sy bs). cbn. repeat split; auto; lia.
    + intros v x Hv Hx. assert (v = bs) by congruence. assert (x = moved_nodes w sx sy bs) by congruence. subst. reflexivity.
    + intros v x k Hv Hx _. assert (v = uo) by congruence. assert (x = turned_bearings w uo) by congruence. subst. split; [split; reflexivity|split; reflexivity].
    + intros v x Hv Hx. assert (v = bo) by congruence. assert (x = turned_bearings w bo) by congruence. subst. split; [split; reflexivity|split; reflexivity].
    + destruct REQ; congruence.
    + intros v x k Hv Hx _. assert (v = vel) by congruence. assert (x = turned_nodes w vel) by congruence. subst. reflexivity.
  - constructor; reflexivity.
  - destruct al; intros ? ? _; reflexivity.
  - constructor; try reflexivity. all: constructor; reflexivity.
  - assert (o2 = o) by congruence. assert (o3 = o1) by congruence. subst o2 o3. apply M; [exact Hu|]. destruct N as [N|N]; [left; exact N|right].
    intros v x Hv Hx. assert (v = ut) by congruence. assert (x = bs) by congruence. subst. exact N.
Qed.

(* straight below its satellite a UT has no azimuth; the code's stays where it is *)
Lemma C91_nadir_l : forall ut bs w sx sy, vx ut = vx bs -> vy ut = vy bs ->
  los_aod (moved w sx sy ut) (moved w sx sy bs) = 0 /\ los_aod ut bs = 0 /\
  los_aoa (moved w sx sy ut) (moved w sx sy bs) = 180 /\ los_aoa ut bs = 180.
Proof.
  intros ut bs w sx sy E1 E2.
  assert (Z : forall x y, vx x = vx y -> vy x = vy y -> los_aod x y = 0 /\ los_aoa x y = 180).
  { intros x y F1 F2. unfold los_aod, los_aoa, wrap_angle_0_360. rewrite F1, F2, !Rminus_eq_0.
    assert (A : atan2 0 0 = 0).
    { unfold atan2. destruct (total_order_T 0 0) as [[H|H]|H]; try lra. all: repeat match goal with |- context [if ?b then _ else _] => destruct b eqn:? end; try reflexivity;
      repeat match goal with H : Rltb _ _ = true |- _ => apply Rltb_true in H end; try lra. }
    rewrite A. unfold rad_2_deg. assert (P := PI_neq0). split.
    - rewrite fmod_id; lra.
    - replace ((0 + PI) * (180 / PI)) with 180 by (field; exact P). rewrite fmod_id; lra. }
  destruct (Z ut bs E1 E2) as [A1 A2]. destruct (Z (moved w sx sy ut) (moved w sx sy bs)) as [B1 B2].
  - unfold moved, turned; cbn [vx vy]. rewrite E1, E2. reflexivity.
  - unfold moved, turned; cbn [vx vy]. rewrite E1, E2. reflexivity.
  - split; [exact B1|]. split; [exact A1|]. split; [exact B2|exact A2].
Qed.

Lemma motion_example_l sc al dr z : constructed sc ->
  let ut := T 2 2 (fun b u => V3 (600000 + 1000 * INR b + 100 * INR u) 0 1.5) in
  let bs := T 2 1 (fun b _ => V3 (50 * INR b) 0 600000) in
  let o n := T 2 n (fun _ _ => V3 0 0 0) in
  snd (chan_set_topology sc al (chan_init sc) (full_args ut bs (o 2%nat) (o 1%nat) (o 2%nat) (T 2 2 (fun b u => Nat.eqb b u)) None) dr z) = Ok tt /\
  (forall b u, vx (t_at ut b u) <> vx (t_at bs b 0%nat)) /\
  moved (PI / 2) 10 20 (t_at ut 1%nat 1%nat) = V3 10 601120 1.5.
Proof.
  intros Hc ut bs o. split; [exact (batch_example_l sc al dr z Hc)|]. split.
  - intros b u. cbn [ut bs t_at vx]. assert (A := pos_INR b). assert (B := pos_INR u). lra.
  - unfold moved, turned. cbn [ut t_at vx vy vz INR]. rewrite cos_PI2, sin_PI2. f_equal; lra.
Qed.
