From Coq Require Import Reals String List Bool Arith Lia Lra ZArith.
From Verif Require Import M_Base L_Base M_Geometry.
Import ListNotations.
Open Scope R_scope.

Lemma cos_period_Z x k : cos (x + 2 * IZR k * PI) = cos x.
Proof.
  destruct (Z_le_gt_dec 0 k) as [H | H].
  - rewrite <- (Z2Nat.id k H), <- INR_IZR_INZ. apply cos_period.
  - replace x with ((x + 2 * IZR k * PI) + 2 * INR (Z.to_nat (- k)) * PI) at 2.
    + symmetry. apply cos_period.
    + rewrite INR_IZR_INZ, Z2Nat.id by lia. rewrite opp_IZR. ring.
Qed.

Lemma sin_period_Z x k : sin (x + 2 * IZR k * PI) = sin x.
Proof.
  destruct (Z_le_gt_dec 0 k) as [H | H].
  - rewrite <- (Z2Nat.id k H), <- INR_IZR_INZ. apply sin_period.
  - replace x with ((x + 2 * IZR k * PI) + 2 * INR (Z.to_nat (- k)) * PI) at 2.
    + symmetry. apply sin_period.
    + rewrite INR_IZR_INZ, Z2Nat.id by lia. rewrite opp_IZR. ring.
Qed.

Lemma deg_rad_wrap x : exists k : Z,
  deg_2_rad (wrap_angle_0_360 (rad_2_deg x)) = x + 2 * IZR k * PI.
Proof.
  unfold wrap_angle_0_360. destruct (fmod_congr (rad_2_deg x) 360) as [k Hk].
  exists (- k)%Z. rewrite Hk. unfold deg_2_rad, rad_2_deg. rewrite opp_IZR.
  assert (P := PI_neq0). field. exact P.
Qed.

Lemma cos_wrap x : cos (deg_2_rad (wrap_angle_0_360 (rad_2_deg x))) = cos x.
Proof. destruct (deg_rad_wrap x) as [k ->]. apply cos_period_Z. Qed.

Lemma sin_wrap x : sin (deg_2_rad (wrap_angle_0_360 (rad_2_deg x))) = sin x.
Proof. destruct (deg_rad_wrap x) as [k ->]. apply sin_period_Z. Qed.

Lemma wrap_range x : 0 <= wrap_angle_0_360 x < 360.
Proof. apply fmod_range. lra. Qed.

(* congruence modulo 360 degrees leaves the direction unchanged *)
Lemma cos_wrap_deg x : cos (deg_2_rad (wrap_angle_0_360 x)) = cos (deg_2_rad x).
Proof.
  unfold wrap_angle_0_360. destruct (fmod_congr x 360) as [k ->].
  replace (deg_2_rad (x - 360 * IZR k)) with (deg_2_rad x + 2 * IZR (- k) * PI).
  - apply cos_period_Z.
  - unfold deg_2_rad. rewrite opp_IZR. field.
Qed.

Lemma sin_wrap_deg x : sin (deg_2_rad (wrap_angle_0_360 x)) = sin (deg_2_rad x).
Proof.
  unfold wrap_angle_0_360. destruct (fmod_congr x 360) as [k ->].
  replace (deg_2_rad (x - 360 * IZR k)) with (deg_2_rad x + 2 * IZR (- k) * PI).
  - apply sin_period_Z.
  - unfold deg_2_rad. rewrite opp_IZR. field.
Qed.

(* polar form of atan2 *)
Lemma sqrt_xy_pos x y : 0 < x * x + y * y -> 0 < sqrt (x * x + y * y).
Proof. apply sqrt_lt_R0. Qed.

Lemma sqrt_factor x y : 0 < x -> sqrt (x * x + y * y) = x * sqrt (1 + (y / x)²).
Proof.
  intros H. transitivity (sqrt (x * x) * sqrt (1 + (y / x)²)); [| rewrite sqrt_square by lra; reflexivity].
  rewrite <- sqrt_mult.
  - f_equal. unfold Rsqr. field. lra.
  - nra.
  - assert (A := Rle_0_sqr (y / x)). lra.
Qed.

Lemma one_plus_sqr_pos t : 0 < 1 + t².
Proof. assert (A := Rle_0_sqr t). lra. Qed.

Lemma atan_pos_polar x y : 0 < x ->
  sqrt (x * x + y * y) * cos (atan (y / x)) = x /\
  sqrt (x * x + y * y) * sin (atan (y / x)) = y.
Proof.
  intros H. rewrite cos_atan, sin_atan, (sqrt_factor x y H).
  assert (S := sqrt_lt_R0 _ (one_plus_sqr_pos (y / x))).
  split; field; lra.
Qed.

Lemma atan2_polar y x :
  sqrt (x * x + y * y) * cos (atan2 y x) = x /\
  sqrt (x * x + y * y) * sin (atan2 y x) = y.
Proof.
  unfold atan2.
  destruct (Rlt_dec 0 x) as [H1 | H1]; [exact (atan_pos_polar x y H1)|].
  destruct (Rlt_dec x 0) as [H2 | H2].
  - assert (N : 0 < - x) by lra.
    destruct (atan_pos_polar (- x) (- y) N) as [A B].
    replace (- x * - x + - y * - y) with (x * x + y * y) in * by ring.
    replace (- y / - x) with (y / x) in * by (field; lra).
    assert (E1 : forall t, cos (t + PI) = - cos t) by (intro; apply neg_cos).
    assert (E2 : forall t, sin (t + PI) = - sin t) by (intro; apply neg_sin).
    destruct (Rle_dec 0 y) as [Hy | Hy].
    + rewrite E1, E2. lra.
    + replace (atan (y / x) - PI) with (atan (y / x) + PI + 2 * IZR (-1) * PI) by (simpl; ring).
      rewrite cos_period_Z, sin_period_Z, E1, E2. lra.
  - assert (x = 0) by lra. subst x.
    destruct (Rlt_dec 0 y) as [H3 | H3].
    + rewrite cos_PI2, sin_PI2. replace (0 * 0 + y * y) with (y * y) by ring.
      rewrite sqrt_square by lra. lra.
    + destruct (Rlt_dec y 0) as [H4 | H4].
      * rewrite cos_neg, sin_neg, cos_PI2, sin_PI2.
        replace (0 * 0 + y * y) with (- y * - y) by ring. rewrite sqrt_square by lra. lra.
      * assert (y = 0) by lra. subst y. rewrite cos_0, sin_0.
        replace (0 * 0 + 0 * 0) with 0 by ring. rewrite sqrt_0. lra.
Qed.

Lemma atan2_cos y x : sqrt (x * x + y * y) * cos (atan2 y x) = x.
Proof. exact (proj1 (atan2_polar y x)). Qed.
Lemma atan2_sin y x : sqrt (x * x + y * y) * sin (atan2 y x) = y.
Proof. exact (proj2 (atan2_polar y x)). Qed.

Lemma atan2_range y x : - PI < atan2 y x <= PI.
Proof.
  assert (P := PI_RGT_0). unfold atan2.
  assert (B := atan_bound (y / x)).
  destruct (Rlt_dec 0 x) as [H1 | H1]; [lra|].
  destruct (Rlt_dec x 0) as [H2 | H2].
  - assert (I : / x < 0) by (apply Rinv_lt_0_compat; lra).
    destruct (Rle_dec 0 y) as [Hy | Hy].
    + split; [lra|]. assert (y / x <= 0) by (unfold Rdiv; nra).
      destruct (Rle_lt_or_eq_dec _ _ H) as [L | E].
      * assert (A := atan_increasing _ _ L). rewrite atan_0 in A. lra.
      * rewrite E, atan_0. lra.
    + assert (0 < y / x) by (unfold Rdiv; nra).
      assert (A := atan_increasing _ _ H). rewrite atan_0 in A. lra.
  - destruct (Rlt_dec 0 y); [lra|]. destruct (Rlt_dec y 0); lra.
Qed.

(* a non-negative first argument gives an angle in [0, pi] *)
Lemma atan2_nonneg y x : 0 <= y -> 0 <= atan2 y x <= PI.
Proof.
  intros Hy. assert (P := PI_RGT_0). assert (R := atan2_range y x). split; [| lra].
  unfold atan2 in *. assert (B := atan_bound (y / x)).
  destruct (Rlt_dec 0 x) as [H1 | H1].
  - assert (0 <= y / x). { apply Rmult_le_pos; [exact Hy|]. left. apply Rinv_0_lt_compat. exact H1. }
    destruct (Rle_lt_or_eq_dec _ _ H) as [L | E].
    + assert (A := atan_increasing _ _ L). rewrite atan_0 in A. lra.
    + rewrite <- E, atan_0. lra.
  - destruct (Rlt_dec x 0); [destruct (Rle_dec 0 y); lra|].
    destruct (Rlt_dec 0 y); [lra|]. destruct (Rlt_dec y 0); lra.
Qed.

(* direction angles are determined by the direction *)
Lemma cos_sin_unique a b : - PI < a <= PI -> - PI < b <= PI -> cos a = cos b -> sin a = sin b -> a = b.
Proof.
  intros Ha Hb Hc Hs. assert (P := PI_RGT_0).
  assert (D : cos (a - b) = 1).
  { rewrite cos_minus, Hc, Hs. assert (E := sin2_cos2 b). unfold Rsqr in E. lra. }
  assert (Z : sin (a - b) = 0). { rewrite sin_minus, Hc, Hs. ring. }
  destruct (sin_eq_0_0 _ Z) as [k Hk].
  assert (k = 0)%Z.
  { assert (-2 < IZR k < 2).
    { split; apply Rmult_lt_reg_r with PI; try lra; rewrite <- Hk; lra. }
    assert (-2 < k < 2)%Z by (split; apply lt_IZR; lra).
    destruct (Z.eq_dec k 0) as [|N]; [assumption|].
    assert (k = 1 \/ k = -1)%Z as [-> | ->] by lia; exfalso.
    - rewrite Hk in D. replace (1 * PI) with PI in D by ring. rewrite cos_PI in D. lra.
    - rewrite Hk in D. replace (-1 * PI) with (- PI) in D by ring. rewrite cos_neg, cos_PI in D. lra. }
  subst k. lra.
Qed.

Lemma acos_unique_range x t : 0 <= t <= PI -> cos t = x -> acos x = t.
Proof. intros H <-. apply acos_cos, H. Qed.
