(* Lemmas about the cloud part of the additional path loss: C99. *)
From Coq Require Import Reals String List Bool Arith Lia Lra.
From Verif Require Import M_Base M_Cplx M_Params M_Geometry M_Pathloss M_Scenario M_Rain S_Config S_Topology L_Params L_Pathloss L_Topology L_RainNum L_Rain S_Cloud.
Import ListNotations.
Open Scope R_scope.

Lemma fp_pos th : 0 < cloud_fp th.
Proof.
  unfold cloud_fp. assert (0 <= (294 * (th - 1) - 71) ^ 2) by (rewrite <- Rsqr_pow2; apply Rle_0_sqr). nra.
Qed.

Lemma relaxes_ex s f0 f : relaxes s f0 f (Cx (s / (1 + (f / f0) ^ 2)) (- (f / f0 * (s / (1 + (f / f0) ^ 2))))).
Proof.
  unfold relaxes, cmul; cbn [re im].
  assert (1 + (f / f0) ^ 2 <> 0) by (assert (0 <= (f / f0) ^ 2) by (rewrite <- Rsqr_pow2; apply Rle_0_sqr); lra).
  generalize dependent (f / f0). intros x Hx. f_equal; field; exact Hx.
Qed.

Lemma polarisability_ex e1 e2 : e2 <> 0 ->
  exists r, polarisability (Cx e1 (- e2)) (Cx r (- (3 * (1 / (e2 * (1 + ((2 + e1) / e2) ^ 2)))))).
Proof.
  intros H.
  assert (D : e2 * e2 + (2 + e1) * (2 + e1) <> 0) by (pose proof (Rsqr_pos_lt _ H); pose proof (Rle_0_sqr (2 + e1)); unfold Rsqr in *; lra).
  assert (1 + ((2 + e1) / e2) ^ 2 <> 0) by (assert (0 <= ((2 + e1) / e2) ^ 2) by (rewrite <- Rsqr_pow2; apply Rle_0_sqr); lra).
  exists (1 - 3 * ((2 + e1) / (e2 * e2 + (2 + e1) * (2 + e1)))).
  replace (1 / (e2 * (1 + ((2 + e1) / e2) ^ 2))) with (e2 / (e2 * e2 + (2 + e1) * (2 + e1)))
    by (field; repeat split; auto; nra).
  unfold polarisability, cmul, cadd; cbn [re im]. f_equal; field; exact D.
Qed.

(* between 216 and 990 kelvin both relaxations absorb *)
Lemma eta2_pos f T : 0 < f -> 216 <= T <= 990 -> 0 < cloud_eta2 f (cloud_theta T).
Proof.
  intros F HT. unfold cloud_eta2. pose proof (fp_pos (cloud_theta T)) as P.
  assert (TH : 300 / 990 <= cloud_theta T <= 300 / 216).
  { unfold cloud_theta, Rdiv. split; apply Rmult_le_compat_l; try lra; apply Rinv_le_contravar; lra. }
  assert (S : 0 < cloud_fs (cloud_theta T)) by (unfold cloud_fs; lra).
  assert (E : 0 < cloud_e0 (cloud_theta T) - 5.48) by (unfold cloud_e0; lra).
  assert (Q : forall x, 0 < 1 + x ^ 2) by (intros x; assert (0 <= x ^ 2) by (rewrite <- Rsqr_pow2; apply Rle_0_sqr); lra).
  apply Rplus_lt_0_compat; apply Rmult_lt_0_compat; try (apply Rdiv_lt_0_compat; auto; lra).
Qed.

Lemma cloud_rayleigh w f el : cloud_eta2 f (cloud_theta (w_temperature w)) <> 0 -> sin (deg_2_rad el) <> 0 ->
  cloud_loss (w_lwc w) (w_temperature w) f el (cloud_att w f el).
Proof.
  intros H2 HS. set (th := cloud_theta (w_temperature w)) in *.
  destruct (polarisability_ex (cloud_eta1 f th) (cloud_eta2 f th) H2) as [r HK].
  exists (Cx (cloud_eta1 f th) (- cloud_eta2 f th)), (Cx r (- (3 * (1 / (cloud_eta2 f th * (1 + ((2 + cloud_eta1 f th) / cloud_eta2 f th) ^ 2)))))).
  split; [|split; [exact HK|]].
  - pose proof (relaxes_ex (cloud_e0 th - 5.48) (cloud_fp th) f) as R1.
    pose proof (relaxes_ex (5.48 - 3.51) (cloud_fs th) f) as R2.
    exists (Cx ((cloud_e0 th - 5.48) / (1 + (f / cloud_fp th) ^ 2)) (- (f / cloud_fp th * ((cloud_e0 th - 5.48) / (1 + (f / cloud_fp th) ^ 2))))),
           (Cx ((5.48 - 3.51) / (1 + (f / cloud_fs th) ^ 2)) (- (f / cloud_fs th * ((5.48 - 3.51) / (1 + (f / cloud_fs th) ^ 2))))).
    split; [|split].
    + replace (static _ (water (w_temperature w))) with (cloud_e0 th) by reflexivity.
      replace (principal _ (water (w_temperature w))) with (cloud_fp th); [exact R1|].
      unfold water, cloud_fp, th, cloud_theta; cbn [principal]. ring.
    + exact R2.
    + unfold cadd, cloud_eta1, cloud_eta2; cbn [re im]. f_equal; ring.
  - cbn [im]. unfold cloud_att. fold th. replace (el * (PI / 180)) with (deg_2_rad el) by (unfold deg_2_rad; field).
    unfold cloud_kl.
    set (D := cloud_eta2 f th * (1 + ((2 + cloud_eta1 f th) / cloud_eta2 f th) ^ 2)).
    unfold Rdiv at 1. rewrite Rmult_assoc, Rinv_l, Rmult_1_r by exact HS. unfold Rdiv. lra.
Qed.

Lemma cplx_eq a b c d : Cx a b = Cx c d -> a = c /\ b = d.
Proof. intros H; inversion H; auto. Qed.

Lemma relaxes_unique s f0 f y z : relaxes s f0 f y -> relaxes s f0 f z -> y = z.
Proof.
  unfold relaxes, cmul. destruct y as [a b], z as [c d]; cbn [re im]. generalize (f / f0). intros x H1 H2.
  rewrite <- H2 in H1. apply cplx_eq in H1. destruct H1 as [H1 H3].
  assert (A : (a - c) * (1 + x * x) = 0) by nra.
  assert (B : (b - d) * (1 + x * x) = 0) by nra.
  assert (0 < 1 + x * x) by nra.
  apply Rmult_integral in A. apply Rmult_integral in B. f_equal; lra.
Qed.

(* the specification determines the attenuation *)
Lemma cloud_loss_unique lwc t f el a b : 0 < sin (el * (PI / 180)) ->
  (forall eps, permittivity t f eps -> im eps <> 0) ->
  cloud_loss lwc t f el a -> cloud_loss lwc t f el b -> a = b.
Proof.
  intros HS HI (e1 & k1 & (y1 & y2 & A1 & A2 & A3) & K1 & E1) (e2 & k2 & P2 & K2 & E2).
  assert (HE : im e2 <> 0) by (apply HI; exact P2).
  destruct P2 as (z1 & z2 & B1 & B2 & B3).
  rewrite (relaxes_unique _ _ _ _ _ A1 B1), (relaxes_unique _ _ _ _ _ A2 B2), <- B3 in A3. subst e1.
  assert (k1 = k2) as ->.
  { clear -K1 K2 HE. unfold polarisability, cmul, cadd in *. destruct k1 as [a b], k2 as [c d], e2 as [x y]; cbn [re im] in *.
    rewrite <- K2 in K1. apply cplx_eq in K1. destruct K1 as [H1 H3].
    replace (y + 0) with y in * by ring. apply Rminus_diag_eq in H1. apply Rminus_diag_eq in H3.
    assert (A : (a - c) * ((x + 2) * (x + 2) + y * y) = 0).
    { transitivity ((x + 2) * (a * (x + 2) - b * y - (c * (x + 2) - d * y)) + y * (a * y + b * (x + 2) - (c * y + d * (x + 2)))); [ring|].
      rewrite H1, H3. ring. }
    assert (B : (b - d) * ((x + 2) * (x + 2) + y * y) = 0).
    { transitivity ((x + 2) * (a * y + b * (x + 2) - (c * y + d * (x + 2))) - y * (a * (x + 2) - b * y - (c * (x + 2) - d * y))); [ring|].
      rewrite H1, H3. ring. }
    assert (0 < (x + 2) * (x + 2) + y * y) by (pose proof (Rsqr_pos_lt _ HE); pose proof (Rle_0_sqr (x + 2)); unfold Rsqr in *; lra).
    apply Rmult_integral in A. apply Rmult_integral in B. f_equal; lra. }
  rewrite <- E2 in E1. apply Rmult_eq_reg_r in E1; [exact E1|lra].
Qed.

Lemma im_permittivity f T eps : permittivity T f eps -> im eps = - cloud_eta2 f (cloud_theta T).
Proof.
  intros (y1 & y2 & A1 & A2 & ->). set (th := cloud_theta T) in *.
  assert (P : principal _ (water T) = cloud_fp th) by (unfold water, cloud_fp, th, cloud_theta; cbn [principal]; ring).
  rewrite P in A1. change (static _ (water T)) with (cloud_e0 th) in A1. change (secondary _ (water T)) with (cloud_fs th) in A2.
  rewrite (relaxes_unique _ _ _ _ _ A1 (relaxes_ex _ _ _)), (relaxes_unique _ _ _ _ _ A2 (relaxes_ex _ _ _)).
  unfold cadd, cloud_eta2; cbn [re im]. ring.
Qed.

Lemma carrier_ghz_pos sc : accepted sc -> 0 < sc_fc sc / 10 ^ 9.
Proof.
  intros H. assert (0 < sc_fc sc) by (destruct (ac_band sc H) as [B|B]; [unfold in_S_band in B|unfold in_Ka_band in B]; lra).
  apply Rdiv_lt_0_compat; [assumption|apply pow_lt; lra].
Qed.

Lemma C99_cloud_l sc w a : constructed sc -> 216 <= w_temperature w <= 990 ->
  cloud_loss (w_lwc w) (w_temperature w) (sc_fc sc / 10 ^ 9) (sc_elev sc) a <->
  a = cloud_att w (sc_fc sc / 10 ^ 9) (sc_elev sc).
Proof.
  intros HC HT. assert (HA := constructed_accepted sc HC). assert (HE := ac_elev sc HA).
  assert (HF := carrier_ghz_pos sc HA). set (f := sc_fc sc / 10 ^ 9) in *.
  assert (P := eta2_pos f (w_temperature w) HF HT).
  destruct (sin_elev_pos (sc_elev sc)) as [S1 S2]; [lra|].
  assert (C : cloud_loss (w_lwc w) (w_temperature w) f (sc_elev sc) (cloud_att w f (sc_elev sc))) by (apply cloud_rayleigh; lra).
  split; [intros H|intros ->; exact C].
  eapply cloud_loss_unique; [| |exact H|exact C].
  - replace (sc_elev sc * (PI / 180)) with (deg_2_rad (sc_elev sc)) by (unfold deg_2_rad; field). exact S1.
  - intros eps He. rewrite (im_permittivity _ _ _ He). lra.
Qed.

(* ---- size: a cloud attenuates, the more the more water, the more the lower the satellite ---- *)
Lemma kl_pos f T : 0 < f -> 216 <= T <= 990 -> 0 < cloud_kl f (cloud_theta T).
Proof.
  intros F HT. assert (P := eta2_pos f T F HT). unfold cloud_kl.
  apply Rdiv_lt_0_compat; [lra|]. apply Rmult_lt_0_compat; [exact P|].
  rewrite <- Rsqr_pow2. pose proof (Rle_0_sqr ((2 + cloud_eta1 f (cloud_theta T)) / cloud_eta2 f (cloud_theta T))). lra.
Qed.

Lemma C99_lower_l w f e1 e2 : 0 < f -> 216 <= w_temperature w <= 990 -> 0 < w_lwc w -> 0 < e1 -> e1 < e2 -> e2 <= 90 ->
  0 < cloud_att w f e2 < cloud_att w f e1.
Proof.
  intros F HT HL L1 L2 L3.
  assert (K := kl_pos f _ F HT).
  destruct (sin_elev_pos e1) as [S1 S1']; [lra|]. destruct (sin_elev_pos e2) as [S2 S2']; [lra|].
  unfold cloud_att.
  assert (M : sin (deg_2_rad e1) < sin (deg_2_rad e2)).
  { assert (Q := PI_RGT_0). unfold deg_2_rad. apply sin_increasing_1; nra. }
  assert (0 < w_lwc w * cloud_kl f (cloud_theta (w_temperature w))) by (apply Rmult_lt_0_compat; assumption).
  split; [apply Rdiv_lt_0_compat; assumption|].
  unfold Rdiv. apply Rmult_lt_compat_l; [assumption|]. apply Rinv_lt_contravar; [apply Rmult_lt_0_compat; assumption|exact M].
Qed.

(* ---- rain ---- *)
Lemma mu_millionths z : mu z = millionths z.
Proof. unfold mu, millionths. lra. Qed.

Lemma bells_regression ts m d f : bells ts m d (log10 f) = regression ts (m, d) f.
Proof.
  unfold bells, regression. fold (log10 f). set (x := log10 f). rewrite !mu_millionths. cbn [fst snd].
  assert (G : forall ts s, fold_left (fun s t => s + bump x t) ts s + millionths m * x + millionths d =
    s + fold_right (fun t s => let '(h, c, w) := t in let u := (x - millionths c) / millionths w in millionths h * exp (- (u * u)) + s)
        (millionths m * x + millionths d) ts).
  { clear ts. induction ts as [|((h, c), w) ts IH]; intros s; cbn [fold_left fold_right]; [lra|].
    rewrite IH. unfold bump. rewrite !mu_millionths. rewrite <- Rsqr_pow2. unfold Rsqr. lra. }
  rewrite G. lra.
Qed.

Lemma C99_rain_l f e : circular_rain f 40 (rain_yr (log10 f) e).
Proof.
  unfold circular_rain. exists (rain_a (log10 f) e).
  assert (KH : rain_kH (log10 f) = Rpower 10 (log_k_horizontal f)).
  { unfold rain_kH, pow10. rewrite kH_bells, bells_regression. reflexivity. }
  assert (KV : rain_kV (log10 f) = Rpower 10 (log_k_vertical f)).
  { unfold rain_kV, pow10. rewrite kV_bells, bells_regression. reflexivity. }
  assert (AH : rain_aH (log10 f) = alpha_horizontal f) by (rewrite aH_bells, bells_regression; reflexivity).
  assert (AV : rain_aV (log10 f) = alpha_vertical f) by (rewrite aV_bells, bells_regression; reflexivity).
  assert (0 < Rpower 10 (log_k_horizontal f)) by (unfold Rpower; apply exp_pos).
  assert (0 < Rpower 10 (log_k_vertical f)) by (unfold Rpower; apply exp_pos).
  unfold rain_yr, rain_a, rain_k. rewrite y1_zero, !Rmult_0_r, !Rplus_0_r, KH, KV, AH, AV.
  split; field; lra.
Qed.

(* the rain rate of the topology plays no role *)
Lemma C99_rate_l w w' f el hs t : w_latitude w = w_latitude w' -> rain_att w f el hs t = rain_att w' f el hs t.
Proof. intros H. unfold rain_att. rewrite H. reflexivity. Qed.

Lemma C99_example_l dir :  dir = "uplink"%string \/ dir = "downlink"%string -> exists sc,
  constructed sc /\ sc_fc sc = 2e9 /\ sc_dir sc = dir /\ 216 <= w_temperature (set_weather no_weather) <= 990 /\
  0 < cloud_att (set_weather no_weather) (sc_fc sc / 10 ^ 9) (sc_elev sc).
Proof.
  intros HD.
  assert (H : is_ok (scenario_init Urban 2e9 ex_array ex_array dir 45 true true true)).
  { apply construct_iff. unfold supported_config, in_S_band, in_Ka_band; cbn. repeat split; auto; lra. }
  destruct H as [sc E0]. exists sc.
  assert (Hc : constructed sc) by (repeat eexists; exact E0). assert (Ha := constructed_accepted sc Hc).
  destruct (init_accepted _ _ _ _ _ _ _ _ _ _ E0) as (_ & _ & EF & ED & EE & _).
  split; [exact Hc|]. split; [exact EF|]. split; [exact ED|].
  assert (HT : 216 <= w_temperature (set_weather no_weather) <= 990) by (cbn; lra).
  split; [exact HT|].
  unfold cloud_att. destruct (sin_elev_pos (sc_elev sc)) as [S _]; [pose proof (ac_elev sc Ha); lra|].
  apply Rdiv_lt_0_compat; [|exact S]. apply Rmult_lt_0_compat; [cbn; lra|].
  apply kl_pos; [exact (carrier_ghz_pos sc Ha)|exact HT].
Qed.
