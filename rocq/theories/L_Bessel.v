(* Bounds on J1 and what they say about the aperture pattern (C42). *)
From Coq Require Import Reals String Lra.
From Verif Require Import M_Base L_Base L_Trig M_Antenna S_Antenna L_Antenna S_Bessel.
Open Scope R_scope.

Lemma integral_of_derivative (F f : R -> R) (hF : forall t, derivable_pt_lim F t (f t)) (hf : continuity f)
  (pr : Riemann_integrable f 0 PI) : RiemannInt pr = F PI - F 0.
Proof.
  set (d := fun t => exist (fun l => derivable_pt_lim F t l) (f t) (hF t) : derivable_pt F t).
  exact (@FTC_Riemann (mkC1 (c1 := F) (diff0 := d) hf) 0 PI pr).
Qed.

Definition prim (x c t : R) : R := sin (x * sin t) / x + c * ((t - sin t * cos t) / 2).
Definition dprim (x c t : R) : R := cos (x * sin t) * cos t + c * (sin t * sin t).

Lemma prim_derive x c t : x <> 0 -> derivable_pt_lim (prim x c) t (dprim x c t).
Proof.
  intros X.
  assert (D : derivable_pt (prim x c) t) by (unfold prim; reg; exact X).
  assert (E : derive_pt (prim x c) t D = dprim x c t).
  { unfold prim. reg. unfold dprim. assert (S := sin2_cos2 t). unfold Rsqr in S.
    replace (cos t ^ 2) with (1 - sin t * sin t) by lra. field. exact X. }
  destruct D as [l Hl]. cbn in E. subst l. exact Hl.
Qed.

Lemma dprim_continuous x c : continuity (dprim x c).
Proof. unfold dprim. intros t. apply derivable_continuous_pt. reg. Qed.

Lemma dprim_integral x c : x <> 0 -> exists pr : Riemann_integrable (dprim x c) 0 PI, RiemannInt pr = c * PI / 2.
Proof.
  intros X.
  assert (pr : Riemann_integrable (dprim x c) 0 PI).
  { apply continuity_implies_RiemannInt; [left; exact PI_RGT_0|]. intros t _. apply dprim_continuous. }
  exists pr. rewrite (integral_of_derivative (prim x c) (dprim x c) (fun t => prim_derive x c t X) (dprim_continuous x c)).
  unfold prim. rewrite sin_PI, sin_0. rewrite !Rmult_0_r, sin_0. field. exact X.
Qed.

Lemma J1_upper x c : x <> 0 -> (forall t, 0 < t < PI -> sin t * sin (x * sin t) <= c * (sin t * sin t)) ->
  bessel_J1 x <= c / 2.
Proof.
  intros X H. destruct (dprim_integral x c X) as [pr E]. unfold bessel_J1.
  assert (L : RiemannInt (bessel_integrable x) <= RiemannInt pr).
  { apply RiemannInt_P19; [left; exact PI_RGT_0|]. intros t T. unfold bessel_integrand, dprim.
    rewrite cos_minus. specialize (H t T). lra. }
  rewrite E in L. pose proof PI_RGT_0. apply Rmult_le_reg_r with PI; [assumption|].
  replace (RiemannInt (bessel_integrable x) / PI * PI) with (RiemannInt (bessel_integrable x)) by (field; lra). lra.
Qed.

Lemma J1_lower x c : x <> 0 -> (forall t, 0 < t < PI -> c * (sin t * sin t) <= sin t * sin (x * sin t)) ->
  c / 2 <= bessel_J1 x.
Proof.
  intros X H. destruct (dprim_integral x c X) as [pr E]. unfold bessel_J1.
  assert (L : RiemannInt pr <= RiemannInt (bessel_integrable x)).
  { apply RiemannInt_P19; [left; exact PI_RGT_0|]. intros t T. unfold bessel_integrand, dprim.
    rewrite cos_minus. specialize (H t T). lra. }
  rewrite E in L. pose proof PI_RGT_0. apply Rmult_le_reg_r with PI; [assumption|].
  replace (RiemannInt (bessel_integrable x) / PI * PI) with (RiemannInt (bessel_integrable x)) by (field; lra). lra.
Qed.

Lemma sin_le_id u : 0 <= u -> Rabs (sin u) <= u.
Proof.
  intros [H| <-]; [| rewrite sin_0, Rabs_R0; lra].
  assert (A := sin_lt_x u H). assert (B := SIN_bound u).
  unfold Rabs. destruct (Rcase_abs (sin u)) as [N|P]; [| lra].
  destruct (Rle_lt_dec u 1) as [U|U]; [| lra].
  exfalso. assert (0 <= sin u); [| lra]. apply sin_ge_0; [lra|]. pose proof PI2_3_2. lra.
Qed.

Lemma sin_abs_le u : Rabs (sin u) <= Rabs u.
Proof.
  destruct (Rle_lt_dec 0 u) as [H|H].
  - rewrite (Rabs_right u) by lra. apply sin_le_id, H.
  - rewrite (Rabs_left u H), <- (Rabs_Ropp (sin u)), <- sin_neg. apply sin_le_id. lra.
Qed.

Lemma cos_quadratic u : 1 - cos u <= u * u / 2.
Proof.
  replace u with (2 * (u / 2)) at 1 by lra. rewrite cos_2a_sin.
  assert (A := sin_abs_le (u / 2)). apply Rsqr_le_abs_1 in A. unfold Rsqr in A. nra.
Qed.

Lemma sin_cubic_pos u : 0 <= u -> 0 <= u - sin u <= u * u * u / 2.
Proof.
  intros [H| <-]; [| rewrite sin_0; lra].
  destruct (MVT_cor2 (fun t => t - sin t) (fun t => 1 - cos t) 0 u H) as (c & E & C).
  { intros t _. apply derivable_pt_lim_minus; [apply derivable_pt_lim_id | apply derivable_pt_lim_sin]. }
  rewrite sin_0 in E. assert (A := cos_quadratic c). assert (B := COS_bound c).
  replace (u - sin u) with ((1 - cos c) * u) by lra. split; [apply Rmult_le_pos; lra|].
  apply Rle_trans with (u * u / 2 * u); [| lra]. apply Rmult_le_compat_r; [lra|]. nra.
Qed.

Lemma J1_0 : bessel_J1 0 = 0.
Proof.
  unfold bessel_J1.
  assert (pr : Riemann_integrable cos 0 PI).
  { apply continuity_implies_RiemannInt; [left; exact PI_RGT_0|]. intros t _. apply continuity_cos. }
  assert (E : RiemannInt pr = 0).
  { rewrite (integral_of_derivative sin cos derivable_pt_lim_sin continuity_cos). rewrite sin_PI, sin_0. lra. }
  rewrite (RiemannInt_P18 (bessel_integrable 0) pr) by
    ((left; exact PI_RGT_0) || (intros t _; unfold bessel_integrand; f_equal; ring)).
  rewrite E. unfold Rdiv. ring.
Qed.

Lemma J1_bound : bessel_bound bessel_J1.
Proof.
  intros x. destruct (Req_dec x 0) as [-> | X]; [rewrite J1_0, Rabs_R0; lra|].
  assert (K : forall t, 0 < t < PI -> Rabs (sin t * sin (x * sin t)) <= Rabs x * (sin t * sin t)).
  { intros t T. assert (S : 0 < sin t) by (apply sin_gt_0; lra). rewrite Rabs_mult, (Rabs_right (sin t)) by lra.
    assert (A := sin_abs_le (x * sin t)). rewrite Rabs_mult, (Rabs_right (sin t)) in A by lra.
    apply Rle_trans with (sin t * (Rabs x * sin t)); [apply Rmult_le_compat_l; lra | lra]. }
  apply Rabs_le. split.
  - replace (- (Rabs x / 2)) with (- Rabs x / 2) by lra. apply J1_lower; [exact X|]. intros t T.
    specialize (K t T). assert (Z := Rle_abs (- (sin t * sin (x * sin t)))). rewrite Rabs_Ropp in Z. lra.
  - apply J1_upper; [exact X|]. intros t T. specialize (K t T). assert (Z := Rle_abs (sin t * sin (x * sin t))). lra.
Qed.

Lemma J1_near_zero x : 0 < x -> Rabs (2 * bessel_J1 x / x - 1) <= x * x / 2.
Proof.
  intros X.
  assert (K : forall t, 0 < t < PI -> (x - x * x * x / 2) * (sin t * sin t) <= sin t * sin (x * sin t) <= x * (sin t * sin t)).
  { intros t T. assert (S : 0 < sin t) by (apply sin_gt_0; lra). assert (B := SIN_bound t).
    destruct (sin_cubic_pos (x * sin t)) as [L U]; [apply Rmult_le_pos; lra|].
    set (s := sin t) in *. set (w := sin (x * s)) in *. split.
    - apply Rle_trans with (s * (x * s - x * s * (x * s) * (x * s) / 2)); [| apply Rmult_le_compat_l; lra].
      assert (Q : s * s <= 1) by nra. assert (0 <= x * x * x) by (repeat apply Rmult_le_pos; lra).
      assert (0 <= s * s) by nra.
      assert (s * s * (s * s) <= s * s) by nra. nra.
    - apply Rle_trans with (s * (x * s)); [apply Rmult_le_compat_l; lra | lra]. }
  assert (A : (x - x * x * x / 2) / 2 <= bessel_J1 x) by (apply J1_lower; [lra | intros t T; apply K, T]).
  assert (B : bessel_J1 x <= x / 2) by (apply J1_upper; [lra | intros t T; apply K, T]).
  assert (E : bessel_J1 x = x / 2 * (2 * bessel_J1 x / x)) by (field; lra).
  set (q := 2 * bessel_J1 x / x) in *. apply Rabs_le. split; nra.
Qed.

(* the aperture pattern with the real Bessel function *)
Lemma aperture_J1 s : exists e, make_element bessel_J1 "aperture" s = Ok e /\
  el_pattern e (PI / 2) 0 = 1 /\
  (forall theta phi, 0 <= el_pattern e theta phi <= 1) /\
  (forall theta phi, sin theta * cos phi < 0 -> el_pattern e theta phi = 0) /\
  (forall theta phi, 0 <= sin theta * cos phi ->
     let y := 20 * PI * sin (acos (sin theta * cos phi)) in
     (y = 0 -> el_pattern e theta phi = 1) /\
     (0 < y -> el_pattern e theta phi = sq (2 * bessel_J1 y / y)) /\
     Rabs (sqrt (el_pattern e theta phi) - 1) <= y * y / 2).
Proof.
  destruct (C42_aperture_l bessel_J1 s) as (e & E & A & B & C & D). exists e.
  split; [exact E|]. split; [exact A|]. split; [intros; split; [apply B | apply D, J1_bound]|]. split; [exact C|].
  intros theta phi H. cbv zeta.
  cbn in E. injection E as <-. cbn [el_pattern]. unfold pattern_aperture.
  set (x := sin theta * cos phi) in *.
  assert (X : 0 <= x <= 1).
  { split; [exact H|]. assert (P := SIN_bound theta). assert (Q := COS_bound phi). unfold x. nra. }
  assert (R0 := acos_bound x). assert (R1 := cos_acos x ltac:(lra)). set (r := acos x) in *.
  assert (R2 : r <= PI / 2).
  { destruct (Rle_lt_dec r (PI / 2)) as [L|L]; [exact L|]. exfalso.
    assert (cos r < 0) by (apply cos_lt_0; lra). lra. }
  assert (P := PI_RGT_0).
  rewrite (proj2 (Rltb_false (0.5 * PI) (Rabs r))) by (rewrite Rabs_right; lra).
  destruct (Req_EM_T 0 r) as [Z|Z].
  - rewrite <- Z, sin_0, Rmult_0_r. split; [reflexivity|]. split; [intros; lra|]. rewrite sqrt_1, Rminus_eq_0, Rabs_R0. lra.
  - assert (S : 0 < sin r) by (apply sin_gt_0; lra).
    set (y := 20 * PI * sin r). assert (Y : 0 < y) by (unfold y; apply Rmult_lt_0_compat; lra).
    replace (sin r * (10 * 2 * PI)) with y by (unfold y; ring). replace (10 * 2 * PI * sin r) with y by (unfold y; ring).
    assert (G : 4 * sq (Rabs (bessel_J1 y / y)) = sq (2 * bessel_J1 y / y)).
    { unfold sq. rewrite <- Rabs_mult, Rabs_right; [field; lra|]. apply Rle_ge. 
      replace (bessel_J1 y / y * (bessel_J1 y / y)) with (Rsqr (bessel_J1 y / y)) by reflexivity. apply Rle_0_sqr. }
    rewrite G. split; [intros; lra|]. split; [reflexivity|].
    assert (N := J1_near_zero y Y). set (q := 2 * bessel_J1 y / y) in *.
    change (sq q) with (Rsqr q). rewrite sqrt_Rsqr_abs.
    apply Rle_trans with (Rabs (q - 1)); [| exact N].
    assert (T := Rabs_triang_inv2 q 1). rewrite (Rabs_right 1) in T by lra. exact T.
Qed.
