(* Lemmas on the computed gain and directivity (C86). *)
From Coq Require Import Reals String List Bool Arith Lra Lia.
From Verif Require Import M_Base L_Base M_Params M_Antenna S_Antenna L_Antenna S_Bessel L_Linear L_Bessel M_Gain S_Gain.
Import ListNotations.
Open Scope string_scope.
Open Scope list_scope.
Open Scope R_scope.

Lemma reduce_max_eq n f M : (forall i, (i <= n)%nat -> f i <= M) -> (exists i, (i <= n)%nat /\ f i = M) ->
  reduce_max n f = M.
Proof.
  induction n as [|n IH]; intros U (i & Hi & E); cbn [reduce_max].
  - replace i with 0%nat in E by lia. exact E.
  - destruct (Nat.eq_dec i (S n)) as [-> | N].
    + rewrite E. apply Rmax_right. rewrite <- E.
      clear IH. assert (B : forall k, (k <= n)%nat -> reduce_max k f <= M).
      { induction k as [|k IK]; intros Hk; cbn [reduce_max]; [apply U; lia|].
        apply Rmax_lub; [apply IK; lia | apply U; lia]. }
      rewrite E. apply B. lia.
    + rewrite IH; [apply Rmax_left, U; lia | intros; apply U; lia | exists i; split; [lia | exact E]].
Qed.

Lemma grid_max_eq u M : (forall i j, u i j <= M) -> u 90%nat 180%nat = M -> grid_max u = M.
Proof.
  intros U E. unfold grid_max. apply reduce_max_eq.
  - intros i _.
    assert (B : forall n, reduce_max n (u i) <= M).
    { induction n as [|n IH]; cbn [reduce_max]; [apply U | apply Rmax_lub; [exact IH | apply U]]. }
    apply B.
  - exists 90%nat. split; [lia|]. apply reduce_max_eq; [intros; apply U|]. exists 180%nat. split; [lia | exact E].
Qed.

Lemma grid_theta_deg i : grid_theta i = INR i * (PI / 180).
Proof. unfold grid_theta, linspace. rewrite (INR_IZR_INZ 180). change (Z.of_nat 180) with 180%Z. field. Qed.
Lemma grid_phi_deg j : grid_phi j = INR j * (PI / 180) - PI.
Proof. unfold grid_phi, linspace. rewrite (INR_IZR_INZ 360). change (Z.of_nat 360) with 360%Z. field. Qed.

Lemma grid_power_pattern j1 pat s e i j : make_element j1 pat s = Ok e ->
  grid_power e i j = el_pattern e (INR i * (PI / 180)) (INR j * (PI / 180) - PI).
Proof.
  intros E. unfold grid_power. rewrite grid_theta_deg, grid_phi_deg.
  apply (C42_field_l j1 pat s e _ _ E).
Qed.

Lemma grid_radiated_mean j1 pat s e : make_element j1 pat s = Ok e ->
  grid_radiated (grid_power e) / (4 * PI) = mean_over_sphere (el_pattern e).
Proof.
  intros E. unfold grid_radiated, mean_over_sphere. f_equal.
  rewrite <- sumR_scale_r. apply sumR_ext. intros i _. rewrite <- sumR_scale_r. apply sumR_ext. intros j _.
  rewrite (grid_power_pattern j1 pat s e i j E), !grid_theta_deg, !grid_phi_deg.
  change (INR 0) with 0. change (INR 1) with 1. ring.
Qed.

Lemma boresight_grid : INR 90 * (PI / 180) = PI / 2 /\ INR 180 * (PI / 180) - PI = 0.
Proof.
  rewrite !INR_IZR_INZ. change (Z.of_nat 90) with 90%Z. change (Z.of_nat 180) with 180%Z. split; field.
Qed.

(* sum of sines *)
Lemma sum_sines d n : 2 * sin (d / 2) * sumR n (fun i => sin (INR i * d)) = cos (d / 2) - cos ((INR n - 1 / 2) * d).
Proof.
  induction n as [|n IH].
  - cbn [sumR]. change (INR 0) with 0. replace ((0 - 1 / 2) * d) with (- (d / 2)) by field. rewrite cos_neg. ring.
  - cbn [sumR]. rewrite Rmult_plus_distr_l, IH, S_INR.
    replace ((INR n + 1 - 1 / 2) * d) with (INR n * d + d / 2) by field.
    replace ((INR n - 1 / 2) * d) with (INR n * d - d / 2) by field.
    rewrite cos_plus, cos_minus. ring.
Qed.

(* the grid sum of sin(zenith) times the cell area, over 4 pi *)
Definition grid_area : R := mean_over_sphere (fun _ _ => 1).

Lemma ring_sum : sumR 181 (fun i => sin (INR i * (PI / 180))) = cos (PI / 360) / sin (PI / 360).
Proof.
  assert (H := sum_sines (PI / 180) 181).
  replace (PI / 180 / 2) with (PI / 360) in H by field.
  replace ((INR 181 - 1 / 2) * (PI / 180)) with (PI / 360 + PI) in H.
  2: { rewrite INR_IZR_INZ. change (Z.of_nat 181) with 181%Z. field. }
  rewrite neg_cos in H.
  assert (S : 0 < sin (PI / 360)) by (apply sin_gt_0; assert (P := PI_RGT_0); lra).
  set (T := sumR 181 _) in *. apply (Rmult_eq_reg_l (2 * sin (PI / 360))); [|lra]. rewrite H. field. lra.
Qed.

Lemma grid_area_eq : grid_area = 361 / 360 * (PI / 360 * cos (PI / 360) / sin (PI / 360)).
Proof.
  unfold grid_area, mean_over_sphere.
  rewrite (sumR_ext 181 _ (fun i => INR 361 * sin (INR i * (PI / 180)))).
  2: { intros i _. rewrite <- (sumR_const 361 (sin (INR i * (PI / 180)))). apply sumR_ext. intros; ring. }
  rewrite sumR_scale, ring_sum. rewrite INR_IZR_INZ. change (Z.of_nat 361) with 361%Z.
  assert (P := PI_RGT_0). assert (S : 0 < sin (PI / 360)) by (apply sin_gt_0; lra).
  field. split; lra.
Qed.

Lemma x_cos_x_lt_sin x : 0 < x < PI / 2 -> x * cos x < sin x.
Proof.
  intros H. assert (P := PI_RGT_0).
  destruct (MVT_cor2 sin cos 0 x) as (c & E & C); [lra | intros; apply derivable_pt_lim_sin|].
  rewrite sin_0, !Rminus_0_r in E. rewrite E, (Rmult_comm x).
  apply Rmult_lt_compat_r; [lra|]. apply cos_decreasing_1; lra.
Qed.

Lemma grid_area_bounds : 1 < grid_area < 361 / 360.
Proof.
  rewrite grid_area_eq. assert (P := PI_RGT_0). assert (P4 := PI_4).
  assert (S : 0 < sin (PI / 360)) by (apply sin_gt_0; lra).
  assert (U := x_cos_x_lt_sin (PI / 360) ltac:(lra)).
  assert (V : sin (PI / 360) < PI / 360) by (apply sin_lt_x; lra).
  assert (W := cos_quadratic (PI / 360)).
  set (x := PI / 360) in *. assert (X : 0 < x < 0.0112) by (unfold x; lra).
  split.
  - assert (C : 360 / 361 < cos x) by nra.
    assert (360 / 361 < x * cos x / sin x); [|lra].
    apply (Rmult_lt_reg_r (sin x)); [exact S|].
    replace (x * cos x / sin x * sin x) with (x * cos x) by (field; lra). nra.
  - assert (x * cos x / sin x < 1); [|lra].
    apply (Rmult_lt_reg_r (sin x)); [exact S|].
    replace (x * cos x / sin x * sin x) with (x * cos x) by (field; lra). lra.
Qed.

Lemma ring_nonneg i : (i < 181)%nat -> 0 <= sin (INR i * (PI / 180)).
Proof.
  intros H. assert (P := PI_RGT_0). assert (I := pos_INR i).
  assert (J : INR i <= 180). { replace 180 with (INR 180) by (rewrite INR_IZR_INZ; reflexivity). apply le_INR. lia. }
  apply sin_ge_0; nra.
Qed.

Lemma sumR_term n f k : (forall i, (i < n)%nat -> 0 <= f i) -> (k < n)%nat -> f k <= sumR n f.
Proof.
  induction n as [|n IH]; intros H L; [lia|]. cbn [sumR].
  assert (A : 0 <= sumR n f) by (apply sumR_nonneg; intros; apply H; lia).
  destruct (Nat.eq_dec k n) as [-> | N]; [lra|].
  assert (0 <= f n) by (apply H; lia). assert (f k <= sumR n f) by (apply IH; [intros; apply H; lia | lia]). lra.
Qed.

(* a non-negative pattern bounded by M: its mean is at most M times the area of the grid *)
Lemma mean_bounds (p : R -> R -> R) M : (forall a b, 0 <= p a b <= M) -> p (PI / 2) 0 = M -> 0 < M ->
  0 < mean_over_sphere p <= M * grid_area.
Proof.
  intros B E HM. assert (P := PI_RGT_0). unfold mean_over_sphere, grid_area, mean_over_sphere. split.
  - apply Rdiv_lt_0_compat; [|lra]. apply Rmult_lt_0_compat; [|apply pow_lt; lra].
    apply Rlt_le_trans with M; [exact HM|].
    destruct boresight_grid as [T F].
    apply Rle_trans with (sumR 361 (fun j => p (INR 90 * (PI / 180)) (INR j * (PI / 180) - PI) * sin (INR 90 * (PI / 180)))).
    2: { apply (sumR_term 181 (fun i => sumR 361 (fun j => p (INR i * (PI / 180)) (INR j * (PI / 180) - PI) * sin (INR i * (PI / 180)))) 90); [|lia].
         intros i Hi. apply sumR_nonneg. intros j _. apply Rmult_le_pos; [apply B | apply ring_nonneg; exact Hi]. }
    rewrite T, sin_PI2.
    apply Rle_trans with (p (PI / 2) (INR 180 * (PI / 180) - PI) * 1); [rewrite F, E; lra|].
    apply (sumR_term 361 (fun j => p (PI / 2) (INR j * (PI / 180) - PI) * 1) 180); [|lia].
    intros j _. rewrite Rmult_1_r. apply B.
  - unfold Rdiv. rewrite <- !Rmult_assoc.
    apply Rmult_le_compat_r; [left; apply Rinv_0_lt_compat; lra|].
    apply Rmult_le_compat_r; [left; apply pow_lt; lra|].
    rewrite <- sumR_scale. apply sumR_le. intros i Hi. rewrite <- sumR_scale. apply sumR_le. intros j _.
    rewrite Rmult_1_l. apply Rmult_le_compat_r; [apply ring_nonneg; exact Hi | apply B].
Qed.

Lemma log10_inv_ x : 0 < x -> log10 (/ x) = - log10 x.
Proof. intros H. unfold log10. rewrite ln_Rinv by exact H. field. apply Rgt_not_eq, ln10_pos. Qed.

Lemma log10_le_ x y : 0 < x -> x <= y -> log10 x <= log10 y.
Proof. intros H [L | ->]; [left; apply log10_increasing; assumption | lra]. Qed.

Lemma gain_of j1 pat s e M : make_element j1 pat s = Ok e ->
  (forall a b, 0 <= el_pattern e a b <= M) -> el_pattern e (PI / 2) 0 = M -> 0 < M ->
  fst (compute_gain e) = 10 * log10 M /\
  0 < mean_over_sphere (el_pattern e) /\
  snd (compute_gain e) = fst (compute_gain e) - 10 * log10 (mean_over_sphere (el_pattern e)) /\
  10 * log10 (360 / 361) < snd (compute_gain e).
Proof.
  intros E B X HM. destruct boresight_grid as [T F].
  destruct (mean_bounds _ M B X HM) as [A1 A2]. destruct grid_area_bounds as [G1 G2].
  assert (U : forall i j, grid_power e i j <= M) by (intros; rewrite (grid_power_pattern _ _ _ _ _ _ E); apply B).
  assert (V : grid_power e 90 180 = M) by (rewrite (grid_power_pattern _ _ _ _ _ _ E), T, F; exact X).
  assert (K : fst (compute_gain e) = 10 * log10 M).
  { unfold compute_gain. cbn [fst]. rewrite (grid_max_eq _ M U V). reflexivity. }
  assert (L : snd (compute_gain e) = 10 * log10 (M / mean_over_sphere (el_pattern e))).
  { unfold compute_gain. cbn [snd]. rewrite (grid_radiated_mean _ _ _ _ E). set (m := mean_over_sphere _) in *.
    rewrite (grid_max_eq _ (M / m)); [reflexivity | | rewrite V; reflexivity].
    intros i j. unfold Rdiv. apply Rmult_le_compat_r; [left; apply Rinv_0_lt_compat, A1 | apply U]. }
  set (m := mean_over_sphere (el_pattern e)) in *.
  split; [exact K|]. split; [exact A1|]. rewrite L, K. split.
  - unfold Rdiv. rewrite log10_mult, log10_inv_; [ring | exact A1 | exact HM | apply Rinv_0_lt_compat, A1].
  - apply Rmult_lt_compat_l; [lra|]. apply log10_increasing; [lra|].
    apply (Rmult_lt_reg_r m); [exact A1|]. replace (M / m * m) with M by (field; lra).
    assert (M * grid_area < M * (361 / 360)) by (apply Rmult_lt_compat_l; lra). nra.
Qed.

Lemma C86_l s pat g : In (pat, g) [("omni", 0); ("38.901", 8); ("aperture", 0); ("dlp", 0)] ->
  exists e gain directivity, make_element bessel_J1 pat s = Ok e /\ compute_gain e = (gain, directivity) /\
  gain = g /\
  0 < mean_over_sphere (el_pattern e) /\
  directivity = gain - 10 * log10 (mean_over_sphere (el_pattern e)) /\
  10 * log10 (360 / 361) < directivity.
Proof.
  intros I.
  assert (K : exists e M, make_element bessel_J1 pat s = Ok e /\ (forall a b, 0 <= el_pattern e a b <= M) /\
     el_pattern e (PI / 2) 0 = M /\ 0 < M /\ 10 * log10 M = g).
  { destruct (C42_patterns_l bessel_J1 s) as ((e1 & E1 & B1 & X1) & (e2 & E2 & B2) & (e3 & E3 & B3 & X3)).
    destruct I as [I | [I | [I | [I | []]]]]; injection I as <- <-.
    - exists e2, 1. split; [exact E2|]. split; [intros; rewrite B2; lra|]. split; [apply B2|]. split; [lra|].
      rewrite log10_1. ring.
    - exists e1, (pow10 0.8). split; [exact E1|].
      split; [intros a b; split; [|apply B1]; left; eapply Rlt_le_trans; [apply pow10_pos | apply B1]|].
      split; [apply X1; split; reflexivity|]. split; [apply pow10_pos|]. rewrite log10_pow10. lra.
    - destruct (aperture_J1 s) as (e & E & A & B & _). exists e, 1. split; [exact E|]. split; [exact B|].
      split; [exact A|]. split; [lra|]. rewrite log10_1. ring.
    - exists e3, 1. split; [exact E3|].
      split; [intros a b; split; [|apply B3]; left; eapply Rlt_le_trans; [apply pow10_pos | apply B3]|].
      split; [apply X3; split; reflexivity|]. split; [lra|]. rewrite log10_1. ring. }
  destruct K as (e & M & E & B & X & HM & G). destruct (gain_of _ _ _ _ M E B X HM) as (R1 & R2 & R3 & R4).
  exists e, (fst (compute_gain e)), (snd (compute_gain e)).
  split; [exact E|]. split; [apply surjective_pairing|]. split; [rewrite R1; exact G|]. repeat split; assumption.
Qed.

Lemma C86_omni_l j1 s : exists e gain directivity, make_element j1 "omni" s = Ok e /\
  compute_gain e = (gain, directivity) /\ gain = 0 /\
  directivity = 10 * log10 (360 / 361 * (tan (PI / 360) / (PI / 360))) /\
  10 * log10 (360 / 361) < directivity < 0.
Proof.
  assert (P := PI_RGT_0). assert (P4 := PI_4).
  eexists. exists (fst (compute_gain {| el_pattern := pattern_omni; el_slant := s |})),
    (snd (compute_gain {| el_pattern := pattern_omni; el_slant := s |})).
  split; [reflexivity|]. split; [apply surjective_pairing|].
  destruct (gain_of j1 "omni" s {| el_pattern := pattern_omni; el_slant := s |} 1) as (R1 & R2 & R3 & R4);
    [reflexivity | intros; cbn; unfold pattern_omni; lra | reflexivity | lra |].
  cbn [el_pattern] in R2, R3.
  change (mean_over_sphere pattern_omni) with grid_area in R2, R3.
  rewrite log10_1, Rmult_0_r in R1. split; [exact R1|].
  assert (D : snd (compute_gain {| el_pattern := pattern_omni; el_slant := s |}) = 10 * log10 (/ grid_area)).
  { rewrite R3, R1, log10_inv_ by exact R2. ring. }
  destruct grid_area_bounds as [G1 G2]. split; [|split; [exact R4|]].
  - rewrite D. f_equal. f_equal. rewrite grid_area_eq. unfold tan.
    assert (S : 0 < sin (PI / 360)) by (apply sin_gt_0; lra).
    assert (C : 0 < cos (PI / 360)) by (apply cos_gt_0; lra).
    field. lra.
  - rewrite D. rewrite log10_inv_ by exact R2.
    assert (0 < log10 grid_area); [|lra]. rewrite <- log10_1. apply log10_increasing; lra.
Qed.
