From Coq Require Import Reals String List Bool Arith Lia Lra ZArith.
From Verif Require Import M_Base L_Base M_Params M_Geometry M_Pathloss S_Config.
Import ListNotations.
Open Scope R_scope.

Lemma Rpower_pos x y : 0 < Rpower x y.
Proof. apply exp_pos. Qed.

Lemma deg_rad_range e : 0 < e <= 90 -> 0 < deg_2_rad e <= PI / 2.
Proof.
  unfold deg_2_rad. intros [H1 H2]. assert (P := PI_RGT_0).
  split; [apply Rmult_lt_0_compat; lra|].
  replace (PI / 2) with (90 * (PI / 180)) by field. apply Rmult_le_compat_r; lra.
Qed.

Lemma sin_elev_pos e : 0 < e <= 90 -> 0 < sin (deg_2_rad e) <= 1.
Proof.
  intros H. assert (R := deg_rad_range e H). assert (P := PI_RGT_0).
  split; [apply sin_gt_0; lra | apply SIN_bound].
Qed.

Ltac pos :=
  lazymatch goal with
  | |- 0 < exp _ => apply exp_pos
  | |- 0 < Rpower _ _ => apply Rpower_pos
  | |- 0 < _ * _ => apply Rmult_lt_0_compat; pos
  | |- 0 < _ / _ => apply Rdiv_lt_0_compat; pos
  | |- 0 < / _ => apply Rinv_0_lt_compat; pos
  | |- 0 < 1 + (_) ^ 2 => apply Rplus_lt_le_0_compat; [lra | apply pow2_ge_0]
  | |- 0 < (_ - _) ^ 2 + _ => apply Rplus_le_lt_0_compat; [apply pow2_ge_0 | pos]
  | |- 0 < _ + _ => apply Rplus_lt_0_compat; pos
  | |- 0 < (_ - _) ^ 2 => rewrite <- Rsqr_pow2; apply Rlt_0_sqr; lra
  | |- 0 < _ ^ _ => apply pow_lt; pos
  | |- _ => first [assumption | lra]
  end.

Section Gas.
  Context (w : weather) (f : R) (HT : 0 < w_temperature w) (HP : 0 < w_pressure w)
          (HV : 0 <= w_vapor w) (Hf : 1 <= f <= 40).

  Lemma gas_rt_pos : 0 < gas_rt w. Proof. unfold gas_rt. pos. Qed.
  Lemma gas_rp_pos : 0 < gas_rp w. Proof. unfold gas_rp. pos. Qed.

  Lemma gas_n1_pos : 0 < gas_n1 w.
  Proof.
    unfold gas_n1. assert (0 < 0.955 * gas_rp w * Rpower (gas_rt w) 0.68).
    { assert (A := gas_rp_pos). pos. }
    assert (0 <= 0.006 * w_vapor w) by (apply Rmult_le_pos; lra). lra.
  Qed.

  Lemma gas_n2_pos : 0 < gas_n2 w.
  Proof.
    unfold gas_n2. assert (0 < 0.735 * gas_rp w * Rpower (gas_rt w) 0.5).
    { assert (A := gas_rp_pos). pos. }
    assert (0 <= 0.0353 * gas_rt w ^ 4 * w_vapor w).
    { assert (B := gas_rt_pos). apply Rmult_le_pos; [| exact HV]. left. pos. }
    lra.
  Qed.

  Lemma gas_Yw_pos : 0 < w_vapor w -> 0 < gas_Yw w f.
  Proof.
    intros HV'. unfold gas_Yw. cbv zeta.
    assert (A := gas_n1_pos). assert (B := gas_n2_pos). assert (C := gas_rt_pos).
    pos.
  Qed.

  Lemma gas_hw_pos : 0 < gas_hw w f.
  Proof.
    unfold gas_hw. cbv zeta.
    set (cw := 1.013 / (1 + exp ((0 - 8.1) * (gas_rp w - 0.57)))).
    assert (0 < cw). { unfold cw. pos. }
    assert (0 < 1.39 * cw / ((f - 22.235) ^ 2 + 2.56 * cw)) by pos.
    assert (0 < 3.37 * cw / ((f - 183.31) ^ 2 + 4.69 * cw)) by pos.
    assert (0 < 1.5 * cw / ((f - 325.1) ^ 2 + 2.89 * cw)) by pos.
    lra.
  Qed.

  Lemma gas_Yo_pos : 0 < gas_Yo w f.
  Proof.
    unfold gas_Yo. cbv zeta.
    assert (A := gas_rt_pos). assert (B := gas_rp_pos).
    assert (E2 : 0 < gas_ee2 w) by (unfold gas_ee2; pos).
    assert (E3 : 0 < gas_ee3 w) by (unfold gas_ee3; pos).
    pos.
  Qed.

  Lemma gas_ho_pos : 0 < gas_ho w f.
  Proof.
    unfold gas_ho. cbv zeta. set (rp := gas_rp w).
    assert (B : 0 < rp) by exact gas_rp_pos.
    apply Rmult_lt_0_compat; [pos|].
    assert (T1 : 0 < 4.64 / (1 + 0.066 * Rpower rp (-2.3))
              * exp (- ((f - 59.7) / (2.87 + 12.4 * exp (- 7.9 * rp))) ^ 2)) by pos.
    assert (T2 : 0 < 0.14 * exp (2.12 * rp) / ((f - 118.75) ^ 2 + 0.031 * exp (2.2 * rp))) by pos.
    set (t1 := _ * exp (- _)) in *. set (t2 := 0.14 * exp (2.12 * rp) / _) in *.
    set (a := 0.0114 / (1 + 0.14 * Rpower rp (-2.6))).
    assert (Ha : 0 < a <= 0.0114).
    { assert (P := Rpower_pos rp (-2.6)). split; [unfold a; pos|].
      unfold a. apply Rle_trans with (0.0114 / 1); [| lra].
      apply Rmult_le_compat_l; [lra|]. apply Rinv_le_contravar; lra. }
    set (N := - 0.0247 + 0.0001 * f + 1.61 / 10 ^ 6 * f ^ 2).
    set (D := 1 - 0.0169 * f + 4.1 / 10 ^ 5 * f ^ 2 + 3.2 / 10 ^ 7 * f ^ 3).
    assert (HN : - 0.0247 <= N <= 0).
    { unfold N. assert (0 <= f ^ 2 <= 1600) by (simpl; nra).
      assert (0 <= 1.61 / 10 ^ 6 * f ^ 2 <= 1.61 / 10 ^ 6 * 1600).
      { split; [apply Rmult_le_pos; lra | apply Rmult_le_compat_l; lra]. }
      lra. }
    assert (HD : 0.324 <= D).
    { unfold D. assert (0 <= f ^ 2) by apply pow2_ge_0.
      assert (0 <= f ^ 3) by (apply pow_le; lra).
      assert (0 <= 4.1 / 10 ^ 5 * f ^ 2) by (apply Rmult_le_pos; lra).
      assert (0 <= 3.2 / 10 ^ 7 * f ^ 3) by (apply Rmult_le_pos; lra). lra. }
    assert (HQ : - 0.1 <= N / D <= 0).
    { assert (0 < / D) by (apply Rinv_0_lt_compat; lra).
      assert (HI : / D <= / 0.324) by (apply Rinv_le_contravar; lra).
      unfold Rdiv. split; [| nra].
      apply Rle_trans with (- 0.0247 * / 0.324); [lra|]. nra. }
    assert (HF : 0 < a * f <= 0.456) by nra.
    assert (- 0.0456 <= a * f * (N / D)) by nra.
    lra.
  Qed.

  Lemma gas_zenith_pos : 0 < gas_zenith w f.
  Proof.
    unfold gas_zenith.
    assert (0 < gas_Yo w f * gas_ho w f) by (apply Rmult_lt_0_compat; [apply gas_Yo_pos | apply gas_ho_pos]).
    assert (0 <= gas_Yw w f * gas_hw w f).
    { destruct (Rle_lt_or_eq_dec _ _ HV) as [H1 | H1].
      - left. apply Rmult_lt_0_compat; [apply gas_Yw_pos, H1 | apply gas_hw_pos].
      - unfold gas_Yw. cbv zeta. rewrite <- H1. right. ring. }
    lra.
  Qed.
End Gas.

Lemma pow10_9 : Rpower 10 9 = 10 ^ 9.
Proof. replace 9 with (INR 9) by (cbn; lra). apply Rpower_pow. lra. Qed.

Lemma band_ghz fc : in_S_band fc \/ in_Ka_band fc -> 1 <= fc / Rpower 10 9 <= 40.
Proof.
  rewrite pow10_9. unfold in_S_band, in_Ka_band. intros H.
  assert (1.9e9 <= fc <= 40e9) by lra. split.
  - apply Rmult_le_reg_r with (10 ^ 9); [lra|]. unfold Rdiv. rewrite Rmult_assoc, Rinv_l by lra. lra.
  - apply Rmult_le_reg_r with (10 ^ 9); [lra|]. unfold Rdiv. rewrite Rmult_assoc, Rinv_l by lra. lra.
Qed.

(* gas loss: positive, and exactly zenith attenuation over sin(elevation) *)
Lemma pl_gas_spec w fc e :
  0 < w_temperature w -> 0 < w_pressure w -> 0 <= w_vapor w ->
  in_S_band fc \/ in_Ka_band fc -> 10 <= e <= 90 ->
  0 < pl_gas w fc e /\ pl_gas w fc e * sin (deg_2_rad e) = pl_gas w fc 90.
Proof.
  intros HT HP HV Hb He. assert (Hf := band_ghz fc Hb).
  assert (Z := gas_zenith_pos w _ HT HP HV Hf).
  assert (S := sin_elev_pos e ltac:(lra)).
  assert (S90 : sin (deg_2_rad 90) = 1).
  { unfold deg_2_rad. replace (90 * (PI / 180)) with (PI / 2) by field. apply sin_PI2. }
  unfold pl_gas. rewrite S90.
  replace (gas_zenith w (fc / Rpower 10 9) / 1) with (gas_zenith w (fc / Rpower 10 9)) by field.
  assert (0 < gas_zenith w (fc / Rpower 10 9) / sin (deg_2_rad e)) by (apply Rdiv_lt_0_compat; lra).
  rewrite !Rabs_right by lra. split; [lra|]. field. lra.
Qed.

Lemma pl_gas_vapor w w' fc e :
  0 < w_temperature w -> 0 < w_pressure w ->
  w_temperature w' = w_temperature w -> w_pressure w' = w_pressure w ->
  w_vapor w = 0 -> 0 < w_vapor w' ->
  in_S_band fc \/ in_Ka_band fc -> 10 <= e <= 90 ->
  pl_gas w fc e < pl_gas w' fc e.
Proof.
  intros HT HP ET EP HV HV' Hb He. assert (Hf := band_ghz fc Hb).
  set (f := fc / Rpower 10 9) in *.
  assert (HT' : 0 < w_temperature w') by lra. assert (HP' : 0 < w_pressure w') by lra.
  assert (Ert : gas_rt w' = gas_rt w) by (unfold gas_rt; rewrite ET; reflexivity).
  assert (Erp : gas_rp w' = gas_rp w) by (unfold gas_rp; rewrite EP; reflexivity).
  assert (Z : gas_zenith w f < gas_zenith w' f).
  { unfold gas_zenith.
    assert (gas_Yo w' f = gas_Yo w f)
      by (unfold gas_Yo, gas_ee1, gas_ee2, gas_ee3; rewrite Ert, Erp; reflexivity).
    assert (gas_ho w' f = gas_ho w f) by (unfold gas_ho; rewrite Erp; reflexivity).
    rewrite H, H0.
    assert (gas_Yw w f = 0) by (unfold gas_Yw; cbv zeta; rewrite HV; ring).
    rewrite H1.
    assert (0 < gas_Yw w' f * gas_hw w' f).
    { apply Rmult_lt_0_compat; [apply gas_Yw_pos | apply gas_hw_pos]; auto; lra. }
    lra. }
  assert (Z0 := gas_zenith_pos w f HT HP ltac:(lra) Hf).
  assert (S := sin_elev_pos e ltac:(lra)).
  unfold pl_gas. fold f.
  assert (0 < / sin (deg_2_rad e)) by (apply Rinv_0_lt_compat; lra).
  unfold Rdiv. rewrite !Rabs_right by (apply Rle_ge; apply Rmult_le_pos; lra).
  apply Rmult_lt_compat_r; lra.
Qed.

(* free-space loss *)
Lemma fspl_dist fc d1 d2 : 0 < d1 -> d1 < d2 -> fspl fc d1 < fspl fc d2.
Proof. intros H1 H2. unfold fspl. assert (L := log10_increasing d1 d2 H1 H2). lra. Qed.

Lemma fspl_freq f1 f2 d : 0 < f1 -> f1 < f2 -> fspl f1 d < fspl f2 d.
Proof.
  intros H1 H2. unfold fspl.
  assert (L := log10_increasing (f1 / 10 ^ 9) (f2 / 10 ^ 9)).
  assert (0 < / 10 ^ 9) by (apply Rinv_0_lt_compat; lra).
  unfold Rdiv in *. specialize (L ltac:(nra) ltac:(nra)). lra.
Qed.

Lemma fspl_decade_d fc d : 0 < d -> fspl fc (10 * d) = fspl fc d + 20.
Proof. intros H. unfold fspl. rewrite log10_mult, log10_10 by lra. ring. Qed.

Lemma fspl_decade_f fc d : 0 < fc -> fspl (10 * fc) d = fspl fc d + 20.
Proof.
  intros H. unfold fspl. replace (10 * fc / 10 ^ 9) with (10 * (fc / 10 ^ 9)) by (field; lra).
  rewrite log10_mult, log10_10; [ring | lra |].
  apply Rdiv_lt_0_compat; lra.
Qed.

Lemma pl_scint_nonneg w fc e : 0 <= pl_scint w fc e.
Proof.
  unfold pl_scint. destruct (Rleb _ _).
  - unfold scint_tropo. cbv zeta. apply Rabs_pos.
  - unfold scint_iono. apply Rmult_le_pos.
    + apply Rmult_le_pos; [lra | left; apply Rpower_pos].
    + left. apply Rinv_0_lt_compat, sqrt_lt_R0. lra.
Qed.

(* orbital speed *)
Lemma GM_pos : 0 < grav_const * earth_mass.
Proof. unfold grav_const, earth_mass. apply Rmult_lt_0_compat; [apply Rmult_lt_0_compat; [lra|] | lra]. apply Rinv_0_lt_compat; lra. Qed.

Lemma satellite_speed_sq h : 0 <= h ->
  (satellite_speed h) ^ 2 * (earth_radius + h) = grav_const * earth_mass.
Proof.
  intros H. unfold satellite_speed. assert (G := GM_pos).
  assert (R : 0 < earth_radius + h) by (unfold earth_radius; lra).
  rewrite <- Rsqr_pow2, Rsqr_sqrt.
  - field. lra.
  - left. apply Rdiv_lt_0_compat; lra.
Qed.

Lemma satellite_speed_pos h : 0 <= h -> 0 < satellite_speed h.
Proof.
  intros H. apply sqrt_lt_R0. apply Rdiv_lt_0_compat; [apply GM_pos | unfold earth_radius; lra].
Qed.

Lemma satellite_speed_decr h1 h2 : 0 <= h1 -> h1 < h2 -> satellite_speed h2 < satellite_speed h1.
Proof.
  intros H1 H2. unfold satellite_speed. assert (G := GM_pos). unfold earth_radius.
  apply sqrt_lt_1.
  - left. apply Rdiv_lt_0_compat; lra.
  - left. apply Rdiv_lt_0_compat; lra.
  - apply Rmult_lt_compat_l; [lra|]. apply Rinv_lt_contravar; nra.
Qed.

Lemma doppler_bound h e fc : 0 <= h -> 0 <= fc -> -90 <= e <= 90 ->
  0 <= satellite_doppler_shift h e fc <= satellite_speed h / speed_of_light * fc.
Proof.
  intros Hh Hf He. unfold satellite_doppler_shift.
  assert (V := satellite_speed_pos h Hh).
  assert (C : 0 <= cos (deg_2_rad e) <= 1).
  { assert (P := PI_RGT_0). split; [| apply COS_bound]. apply cos_ge_0; unfold deg_2_rad.
    - replace (- (PI / 2)) with (-90 * (PI / 180)) by field. apply Rmult_le_compat_r; lra.
    - replace (PI / 2) with (90 * (PI / 180)) by field. apply Rmult_le_compat_r; lra. }
  assert (Q : 0 <= earth_radius / (earth_radius + h) <= 1).
  { unfold earth_radius. split.
    - apply Rmult_le_pos; [lra|]. left. apply Rinv_0_lt_compat; lra.
    - apply Rmult_le_reg_r with (6371000 + h); [lra|]. unfold Rdiv.
      rewrite Rmult_assoc, Rinv_l by lra. lra. }
  set (q := earth_radius / (earth_radius + h)) in *. set (c := cos (deg_2_rad e)) in *.
  assert (B : 0 <= satellite_speed h / speed_of_light).
  { unfold speed_of_light. apply Rmult_le_pos; [lra|]. left. apply Rinv_0_lt_compat; lra. }
  set (b := satellite_speed h / speed_of_light) in *.
  assert (0 <= q * c <= 1) by nra.
  assert (0 <= b * (q * c) <= b) by nra. nra.
Qed.

(* exact value at the horizon-free extreme: strictly positive below 90 degrees *)
Lemma doppler_zenith h fc : satellite_doppler_shift h 90 fc = 0.
Proof.
  unfold satellite_doppler_shift, deg_2_rad. replace (90 * (PI / 180)) with (PI / 2) by field.
  rewrite cos_PI2. ring.
Qed.
