(* Lemmas about the rain and cloud attenuation: C93. *)
From Coq Require Import Reals String List Bool Arith Lia Lra ZArith.
From Verif Require Import M_Base L_Base M_Params S_Config L_Params M_Geometry M_Pathloss
  M_Scenario S_Topology L_Config L_Scenario L_Fresh L_Topology L_Pathloss M_Rain L_RainNum.
Import ListNotations.
Open Scope string_scope.
Open Scope list_scope.
Open Scope R_scope.

(* ---- the sums of the model as sums over integers ---- *)
Definition kH_z : list (Z * Z * Z) :=
  [(-5339800, -100080, 1130980); (-353510, 1269700, 454000); (-237890, 860360, 153540); (-941580, 645520, 168170)]%Z.
Definition kV_z : list (Z * Z * Z) :=
  [(-3805950, 569340, 810610); (-3449650, -229110, 510590); (-399020, 730420, 118990); (501670, 1073190, 271950)]%Z.
Definition aH_z : list (Z * Z * Z) :=
  [(-143180, 1824420, -551870); (295910, 775640, 198220); (321770, 637730, 131640); (-5376100, -962300, 1478280);
   (16172100, -3299800, 3439900)]%Z.
Definition aV_z : list (Z * Z * Z) :=
  [(-77710, 2338400, -762840); (567270, 955450, 540390); (-202380, 1145200, 268090); (-48299100, 791669, 116226);
   (48583300, 791459, 116479)]%Z.

Lemma term_bump x a b c za zb zc : mu za = a -> mu zb = b -> mu zc = c -> rain_term x (a, b, c) = bump x (za, zb, zc).
Proof. intros <- <- <-. reflexivity. Qed.

Lemma kH_bells x : rain_sum kH_terms (-0.18961) 0.71147 x = bells kH_z (-189610) 711470 x.
Proof.
  unfold rain_sum, bells, kH_terms, kH_z. cbn [fold_left].
  rewrite (term_bump x _ _ _ (-5339800) (-100080) 1130980), (term_bump x _ _ _ (-353510) 1269700 454000),
    (term_bump x _ _ _ (-237890) 860360 153540), (term_bump x _ _ _ (-941580) 645520 168170) by (unfold mu; lra).
  replace (mu (-189610)) with (-0.18961) by (unfold mu; lra). replace (mu 711470) with 0.71147 by (unfold mu; lra). reflexivity.
Qed.
Lemma kV_bells x : rain_sum kV_terms (-0.16398) 0.63297 x = bells kV_z (-163980) 632970 x.
Proof.
  unfold rain_sum, bells, kV_terms, kV_z. cbn [fold_left].
  rewrite (term_bump x _ _ _ (-3805950) 569340 810610), (term_bump x _ _ _ (-3449650) (-229110) 510590),
    (term_bump x _ _ _ (-399020) 730420 118990), (term_bump x _ _ _ 501670 1073190 271950) by (unfold mu; lra).
  replace (mu (-163980)) with (-0.16398) by (unfold mu; lra). replace (mu 632970) with 0.63297 by (unfold mu; lra). reflexivity.
Qed.
Lemma aH_bells x : rain_aH x = bells aH_z 678490 (-1955370) x.
Proof.
  unfold rain_aH, rain_sum, bells, aH_terms, aH_z. cbn [fold_left].
  rewrite (term_bump x _ _ _ (-143180) 1824420 (-551870)), (term_bump x _ _ _ 295910 775640 198220),
    (term_bump x _ _ _ 321770 637730 131640), (term_bump x _ _ _ (-5376100) (-962300) 1478280),
    (term_bump x _ _ _ 16172100 (-3299800) 3439900) by (unfold mu; lra).
  replace (mu 678490) with 0.67849 by (unfold mu; lra). replace (mu (-1955370)) with (-1.95537) by (unfold mu; lra). reflexivity.
Qed.
Lemma aV_bells x : rain_aV x = bells aV_z (-53739) 834330 x.
Proof.
  unfold rain_aV, rain_sum, bells, aV_terms, aV_z. cbn [fold_left].
  rewrite (term_bump x _ _ _ (-77710) 2338400 (-762840)), (term_bump x _ _ _ 567270 955450 540390),
    (term_bump x _ _ _ (-202380) 1145200 268090), (term_bump x _ _ _ (-48299100) 791669 116226),
    (term_bump x _ _ _ 48583300 791459 116479) by (unfold mu; lra).
  replace (mu (-53739)) with (-0.053739) by (unfold mu; lra). replace (mu 834330) with 0.83433 by (unfold mu; lra). reflexivity.
Qed.

(* ---- the specific attenuation per GHz is below 0.4 dB/km ---- *)
Definition k_up (lo hi : Z) : Z := Z.max (bells_up kH_z (-189610) 711470 lo hi) (bells_up kV_z (-163980) 632970 lo hi).
Definition a_up (lo hi : Z) : Z := Z.max 0 (Z.max (bells_up aH_z 678490 (-1955370) lo hi) (bells_up aV_z (-53739) 834330 lo hi)).
Definition piece (step lo : Z) : bool :=
  (10000 * (k_up lo (lo + step) - lo) + 16025 * a_up lo (lo + step) <? - 4000000000)%Z.
Definition pieces (step lo : Z) (n : nat) : bool := forallb (fun i => piece step (lo + step * Z.of_nat i)) (seq 0 n).

Lemma pieces_S : pieces 13000 278000 25 = true.
Proof. vm_compute. reflexivity. Qed.
Lemma pieces_Ka : pieces 30000 1278000 11 = true.
Proof. vm_compute. reflexivity. Qed.

Lemma piece_of step lo n x : (0 < step)%Z -> pieces step lo n = true -> mu lo <= x < mu (lo + step * Z.of_nat n) ->
  exists l, piece step l = true /\ mu l <= x <= mu (l + step).
Proof.
  intros Hs HP. unfold pieces in HP. rewrite forallb_forall in HP.
  assert (G : forall k, (k <= n)%nat -> mu lo <= x < mu (lo + step * Z.of_nat k) ->
    exists l, piece step l = true /\ mu l <= x <= mu (l + step)).
  { induction k as [|k IH]; intros Hk [A B].
    - replace (lo + step * Z.of_nat 0)%Z with lo in B by lia. lra.
    - destruct (Rlt_le_dec x (mu (lo + step * Z.of_nat k))) as [L|L]; [apply IH; [lia|lra]|].
      exists (lo + step * Z.of_nat k)%Z. split; [apply HP, in_seq; lia|]. split; [exact L|].
      replace (lo + step * Z.of_nat k + step)%Z with (lo + step * Z.of_nat (S k))%Z by lia. lra. }
  apply G. lia.
Qed.

Lemma mu_le a b : (a <= b)%Z -> mu a <= mu b.
Proof. intros H. apply IZR_le in H. unfold mu. lra. Qed.


(* bounds on decimal logarithms by comparing integer powers *)
Lemma log10_pow n x : 0 < x -> pow10 (INR n * log10 x) = x ^ n.
Proof.
  intros X. rewrite <- Rpower_pow by exact X. unfold pow10, log10, Rpower. f_equal. field.
  pose proof (ln_increasing 1 10). rewrite ln_1 in H. lra.
Qed.
Lemma pow10_INR n : pow10 (INR n) = 10 ^ n.
Proof. unfold pow10. apply Rpower_pow. lra. Qed.
Lemma log10_le_q (p q : nat) x : (0 < q)%nat -> 0 < x -> x ^ q <= 10 ^ p -> INR q * log10 x <= INR p.
Proof.
  intros Q X H. destruct (Rle_lt_dec (INR q * log10 x) (INR p)) as [L|L]; [exact L|exfalso].
  apply pow10_increasing in L. rewrite log10_pow, pow10_INR in L by exact X. lra.
Qed.
Lemma log10_ge_q (p q : nat) x : (0 < q)%nat -> 0 < x -> 10 ^ p <= x ^ q -> INR p <= INR q * log10 x.
Proof.
  intros Q X H. destruct (Rle_lt_dec (INR p) (INR q * log10 x)) as [L|L]; [exact L|exfalso].
  apply pow10_increasing in L. rewrite log10_pow, pow10_INR in L by exact X. lra.
Qed.
Lemma INR_Z n : INR n = IZR (Z.of_nat n).
Proof. apply INR_IZR_INZ. Qed.

Lemma log10_40 : log10 40 <= 1.6025.
Proof.
  assert (H : INR 400 * log10 40 <= INR 641).
  { apply log10_le_q; [lia|lra|]. rewrite !pow_IZR. apply IZR_le. vm_compute. discriminate. }
  rewrite !INR_Z in H. cbn [Z.of_nat Pos.of_succ_nat Pos.succ] in H. lra.
Qed.
Lemma log10_4 : log10 4 <= 0.603 - 0.0005.
Proof.
  assert (H : INR 400 * log10 4 <= INR 241).
  { apply log10_le_q; [lia|lra|]. rewrite !pow_IZR. apply IZR_le. vm_compute. discriminate. }
  rewrite !INR_Z in H. cbn [Z.of_nat Pos.of_succ_nat Pos.succ] in H. lra.
Qed.
Lemma log10_19 : 1.278 <= log10 19.
Proof.
  assert (H : INR 639 <= INR 500 * log10 19).
  { apply log10_ge_q; [lia|lra|]. rewrite !pow_IZR. apply IZR_le. vm_compute. discriminate. }
  rewrite !INR_Z in H. cbn [Z.of_nat Pos.of_succ_nat Pos.succ] in H. lra.
Qed.

Lemma log10_mono x y : 0 < x -> x <= y -> log10 x <= log10 y.
Proof. intros X [H|H]; [left; apply log10_increasing; assumption|rewrite H; lra]. Qed.

Lemma y1_zero : cos (2 * 45 * PI / 180) = 0.
Proof. replace (2 * 45 * PI / 180) with (PI / 2) by field. apply cos_PI2. Qed.

Lemma rain_yr_bound x e l step : (0 < step)%Z -> piece step l = true -> mu l <= x <= mu (l + step) ->
  0 < rain_yr x e /\ rain_yr x e <= 0.4 * pow10 x.
Proof.
  intros Hs HP HX. unfold rain_yr.
  assert (K : rain_k x e = (rain_kH x + rain_kV x) / 2) by (unfold rain_k; cbv zeta; rewrite y1_zero; field).
  pose proof (pow10_pos (rain_sum kH_terms (-0.18961) 0.71147 x)) as PH. fold (rain_kH x) in PH.
  pose proof (pow10_pos (rain_sum kV_terms (-0.16398) 0.63297 x)) as PV. fold (rain_kV x) in PV.
  assert (A : rain_a x e = (rain_kH x * rain_aH x + rain_kV x * rain_aV x) / (rain_kH x + rain_kV x)).
  { unfold rain_a; cbv zeta. rewrite y1_zero, K. field. lra. }
  rewrite K, A.
  assert (NZ : Forall (fun t : Z * Z * Z => snd t <> 0%Z) kH_z /\ Forall (fun t : Z * Z * Z => snd t <> 0%Z) kV_z /\
    Forall (fun t : Z * Z * Z => snd t <> 0%Z) aH_z /\ Forall (fun t : Z * Z * Z => snd t <> 0%Z) aV_z).
  { unfold kH_z, kV_z, aH_z, aV_z. repeat split; repeat constructor; cbn; lia. }
  destruct NZ as (N1 & N2 & N3 & N4).
  pose proof (bells_up_ok _ (-189610) 711470 _ _ _ N1 HX) as B1. rewrite <- kH_bells in B1.
  pose proof (bells_up_ok _ (-163980) 632970 _ _ _ N2 HX) as B2. rewrite <- kV_bells in B2.
  pose proof (bells_up_ok _ 678490 (-1955370) _ _ _ N3 HX) as B3. rewrite <- aH_bells in B3.
  pose proof (bells_up_ok _ (-53739) 834330 _ _ _ N4 HX) as B4. rewrite <- aV_bells in B4.
  unfold piece in HP. apply Z.ltb_lt, IZR_lt in HP.
  set (U := k_up l (l + step)) in *. set (W := a_up l (l + step)) in *.
  assert (B1' : rain_sum kH_terms (-0.18961) 0.71147 x <= mu U) by (eapply Rle_trans; [exact B1|apply mu_le; unfold U, k_up; lia]).
  assert (B2' : rain_sum kV_terms (-0.16398) 0.63297 x <= mu U) by (eapply Rle_trans; [exact B2|apply mu_le; unfold U, k_up; lia]).
  assert (B3' : rain_aH x <= mu W) by (eapply Rle_trans; [exact B3|apply mu_le; unfold W, a_up; lia]).
  assert (B4' : rain_aV x <= mu W) by (eapply Rle_trans; [exact B4|apply mu_le; unfold W, a_up; lia]).
  assert (W0 : 0 <= mu W) by (replace 0 with (mu 0) by (unfold mu; lra); apply mu_le; unfold W, a_up; lia).
  assert (KU : (rain_kH x + rain_kV x) / 2 <= pow10 (mu U)).
  { apply pow10_le in B1', B2'. fold (rain_kH x) in B1'. fold (rain_kV x) in B2'. lra. }
  assert (AW : (rain_kH x * rain_aH x + rain_kV x * rain_aV x) / (rain_kH x + rain_kV x) <= mu W).
  { apply (Rmult_le_reg_r (rain_kH x + rain_kV x)); [lra|].
    replace ((rain_kH x * rain_aH x + rain_kV x * rain_aV x) / (rain_kH x + rain_kV x) * (rain_kH x + rain_kV x))
      with (rain_kH x * rain_aH x + rain_kV x * rain_aV x) by (field; lra).
    pose proof (Rmult_le_compat_l _ _ _ (Rlt_le _ _ PH) B3'). pose proof (Rmult_le_compat_l _ _ _ (Rlt_le _ _ PV) B4'). lra. }
  set (a := (rain_kH x * rain_aH x + rain_kV x * rain_aV x) / (rain_kH x + rain_kV x)) in *.
  assert (R40 : Rpower 40 a <= pow10 (1.6025 * mu W)).
  { replace (Rpower 40 a) with (pow10 (a * log10 40)).
    - apply pow10_le. apply Rle_trans with (mu W * log10 40).
      + apply Rmult_le_compat_r; [|exact AW]. rewrite <- log10_1. apply log10_mono; lra.
      + rewrite (Rmult_comm 1.6025). apply Rmult_le_compat_l; [exact W0|apply log10_40].
    - unfold pow10, log10, Rpower. f_equal. field. pose proof (ln_increasing 1 10). rewrite ln_1 in H. lra. }
  assert (P40 : 0 < Rpower 40 a) by (unfold Rpower; apply exp_pos).
  split; [apply Rmult_lt_0_compat; lra|].
  apply Rle_trans with (pow10 (mu U) * pow10 (1.6025 * mu W)); [apply Rmult_le_compat; lra|].
  rewrite <- pow10_plus. apply Rle_trans with (pow10 (- (2/5) + x)).
  - apply pow10_le. rewrite plus_IZR, !mult_IZR, minus_IZR in HP. unfold mu in *. destruct HX as [HX1 HX2]. lra.
  - rewrite pow10_plus. apply Rmult_le_compat_r; [left; apply pow10_pos|].
    assert (P : pow10 (- (2 / 5)) ^ 5 = / 100).
    { unfold pow10. rewrite <- Rpower_pow by (unfold Rpower; apply exp_pos). rewrite Rpower_mult.
      replace (- (2 / 5) * INR 5) with (- INR 2) by (cbn; field). rewrite Rpower_Ropp, Rpower_pow by lra. lra. }
    destruct (Rle_lt_dec (pow10 (- (2 / 5))) 0.4) as [L|L]; [exact L|exfalso].
    pose proof (pow_incr 0.4 (pow10 (- (2 / 5))) 5 ltac:(lra)) as Q. rewrite P in Q. cbn [pow] in Q. lra.
Qed.

Lemma rain_yr_supported fc e : in_S_band fc \/ in_Ka_band fc -> 0 < fc / 10 ^ 9 /\
  0 < rain_yr (log10 (fc / 10 ^ 9)) e /\ rain_yr (log10 (fc / 10 ^ 9)) e <= 0.4 * (fc / 10 ^ 9).
Proof.
  intros B. set (f := fc / 10 ^ 9).
  assert (F : 1.9 <= f <= 4 \/ 19 <= f <= 40) by (unfold in_S_band, in_Ka_band in B; unfold f; cbn [pow]; destruct B; [left|right]; lra).
  assert (F0 : 0 < f) by (destruct F; lra). split; [exact F0|].
  assert (X : exists l step, (0 < step)%Z /\ piece step l = true /\ mu l <= log10 f <= mu (l + step)).
  { assert (T10 : forall y, 0 < y -> log10 (10 * y) = 1 + log10 y) by (intros y Y; rewrite log10_mult, log10_10 by lra; reflexivity).
    assert (L19 : 0.278 <= log10 1.9).
    { pose proof log10_19 as L. replace 19 with (10 * 1.9) in L by lra. rewrite T10 in L by lra. lra. }
    assert (L40 : log10 40 <= 1.6025) by apply log10_40. pose proof log10_19 as LL. pose proof log10_4 as L4.
    destruct F as [[F1 F2]|[F1 F2]].
    - destruct (piece_of 13000 278000 25 (log10 f) eq_refl pieces_S) as (l & H); [|exists l, 13000%Z; split; [reflexivity|exact H]].
      replace (mu 278000) with 0.278 by (unfold mu; lra). replace (mu (278000 + 13000 * Z.of_nat 25)) with 0.603 by (unfold mu; cbn -[IZR]; lra).
      apply log10_mono in F1; [|lra]. apply log10_mono in F2; [|lra]. lra.
    - destruct (piece_of 30000 1278000 11 (log10 f) eq_refl pieces_Ka) as (l & H); [|exists l, 30000%Z; split; [reflexivity|exact H]].
      replace (mu 1278000) with 1.278 by (unfold mu; lra). replace (mu (1278000 + 30000 * Z.of_nat 11)) with 1.608 by (unfold mu; cbn -[IZR]; lra).
      apply log10_mono in F1; [|lra]. apply log10_mono in F2; [|lra]. lra. }
  destruct X as (l & step & S & P & L). pose proof (rain_yr_bound (log10 f) e l step S P L) as H.
  rewrite pow10_log10 in H by exact F0. exact H.
Qed.

(* ---- elevation ---- *)
Lemma elev_rad e : e * PI / 180 = deg_2_rad e.
Proof. unfold deg_2_rad. field. Qed.
Lemma sin_triple a : sin (3 * a) = 3 * sin a - 4 * sin a ^ 3.
Proof.
  replace (3 * a) with (2 * a + a) by ring. rewrite sin_plus, sin_2a, cos_2a_sin.
  pose proof (sin2_cos2 a) as H. unfold Rsqr in H.
  replace (2 * sin a * cos a * cos a) with (2 * sin a * (1 - sin a * sin a)) by (rewrite <- H; ring). ring.
Qed.
Lemma neg_pos x y : x < 0 -> 0 < y -> x * y < 0.
Proof. intros X Y. pose proof (Rmult_lt_0_compat (- x) y ltac:(lra) Y). lra. Qed.
Lemma sin_elev_sixth e : 10 <= e <= 90 -> 1 / 6 <= sin (e * PI / 180).
Proof.
  intros H. apply Rle_trans with (sin (PI / 18)).
  - pose proof (sin_triple (PI / 18)) as T. replace (3 * (PI / 18)) with (PI / 6) in T by field. rewrite sin_PI6 in T.
    assert (P : 0 < sin (PI / 18)) by (apply sin_gt_0; pose proof PI_RGT_0; lra).
    pose proof (pow_lt _ 3 P). lra.
  - pose proof PI_RGT_0. apply sin_incr_1; nra.
Qed.
Lemma cos_elev_pos e : 10 <= e < 90 -> 0 < cos (e * PI / 180).
Proof. intros H. pose proof PI_RGT_0. apply cos_gt_0; nra. Qed.

(* ---- a station above the rain: the square root of a negative length ---- *)
Lemma rain_att_above w f elev hs t r : 0 < rain_yr (log10 f) (elev * PI / 180) -> 10 <= elev <= 90 ->
  5 - 0.075 * (w_latitude w - 23) < hs -> rain_att w f elev hs t = r ->
  r = Err (ValueError "math domain error") \/
  r = Err (ZeroDivisionError "float division by zero") /\ t = false /\ elev = 90.
Proof.
  intros Y E H <-. enough (G : exists e, rain_att w f elev hs t = Err e /\ (e = ValueError "math domain error" \/
    e = ZeroDivisionError "float division by zero" /\ t = false /\ elev = 90)).
  { destruct G as (x & -> & [->|(-> & K)]); [left|right]; auto. }
  unfold rain_att. cbv zeta. set (hr := 5 - 0.075 * (w_latitude w - 23)) in *.
  set (e := elev * PI / 180) in *. set (yr := rain_yr (log10 f) e) in *.
  pose proof (sin_elev_sixth elev E) as S. fold e in S.
  assert (LS : (hr - hs) / sin e < 0) by (apply neg_pos; [lra|apply Rinv_0_lt_compat; lra]).
  set (ls := (hr - hs) / sin e) in *. set (m := ls / 1000 * cos e * yr / f - _).
  unfold py_sqrt at 1. destruct (Rltb m 0); [eexists; split; [reflexivity|left; reflexivity]|]. cbn [bind].
  set (hrf := 1 / (1 + 0.78 * sqrt m)).
  assert (HR : 0 < hrf) by (unfold hrf; pose proof (sqrt_pos m); apply Rdiv_lt_0_compat; lra).
  destruct (Req_EM_T (ls / 1000 * cos e * hrf) 0) as [Z|Z].
  - eexists. split; [reflexivity|]. destruct t; [left; reflexivity|]. right. split; [reflexivity|]. split; [reflexivity|].
    destruct (Rle_lt_dec 90 elev) as [L|L]; [lra|exfalso]. pose proof (cos_elev_pos elev ltac:(lra)) as C. fold e in C.
    apply Rmult_integral in Z. destruct Z as [Z|Z]; [|lra]. apply Rmult_integral in Z. destruct Z; lra.
  - eexists. split; [|left; reflexivity].
    assert (C : 0 < cos e).
    { destruct (Rle_lt_dec 90 elev) as [L|L]; [|apply cos_elev_pos; lra]. exfalso. apply Z.
      replace e with (PI / 2) by (unfold e; replace elev with 90 by lra; field). rewrite cos_PI2. ring. }
    set (lr := if Rltb e _ then _ else ls).
    assert (LR : lr < 0).
    { unfold lr. destruct (Rltb e _); [|exact LS]. replace (ls / 1000 * cos e * hrf / cos e) with (ls * (hrf / 1000)) by (field; lra).
      apply neg_pos; [exact LS|lra]. }
    unfold py_sqrt at 1. assert (Q : lr * yr < 0) by (apply neg_pos; assumption).
    unfold Rltb at 1. destruct (Rlt_dec (lr * yr) 0); [reflexivity|contradiction].
Qed.

(* ---- a station on the ground: the difference under the first square root is negative ---- *)
Lemma rain_att_ground w f elev t : 0 < f -> 0 < rain_yr (log10 f) (elev * PI / 180) -> rain_yr (log10 f) (elev * PI / 180) <= 0.4 * f ->
  10 <= elev < 90 -> -90 <= w_latitude w < 89 -> rain_att w f elev 0 t = Err (ValueError "math domain error").
Proof.
  intros F Y1 Y2 E HL. unfold rain_att. cbv zeta. set (hr := 5 - 0.075 * (w_latitude w - 23)).
  assert (HR : 0 < hr < 13.5) by (unfold hr; lra).
  set (e := elev * PI / 180) in *. set (yr := rain_yr (log10 f) e) in *.
  pose proof (sin_elev_sixth elev ltac:(lra)) as S. pose proof (cos_elev_pos elev E) as C. fold e in S, C.
  rewrite Rminus_0_r. set (lg := hr / sin e / 1000 * cos e).
  assert (LG : 0 < lg < 0.1).
  { assert (I : 0 < / sin e <= 6).
    { split; [apply Rinv_0_lt_compat; lra|]. replace 6 with (/ (1 / 6)) by lra. apply Rinv_le_contravar; lra. }
    pose proof (COS_bound e) as [_ C1].
    assert (A : 0 < hr * / sin e < 81.1).
    { split; [apply Rmult_lt_0_compat; lra|]. apply Rle_lt_trans with (13.5 * 6); [apply Rmult_le_compat; lra|lra]. }
    unfold lg, Rdiv at 1. unfold Rdiv in *. set (q := hr * / sin e) in *. split.
    - apply Rmult_lt_0_compat; [lra|exact C].
    - apply Rle_lt_trans with (q * / 1000 * 1); [apply Rmult_le_compat_l; lra|lra]. }
  assert (EX : exp (-2 * lg) <= 1 - 2 * lg + 4 * lg * lg).
  { replace (-2 * lg) with (- (2 * lg)) by ring. rewrite exp_Ropp. pose proof (exp_ineq1_le (2 * lg)).
    apply Rle_trans with (/ (1 + 2 * lg)); [apply Rinv_le_contravar; lra|].
    apply (Rmult_le_reg_r (1 + 2 * lg)); [lra|]. rewrite Rinv_l by lra.
    replace ((1 - 2 * lg + 4 * lg * lg) * (1 + 2 * lg)) with (1 + 8 * (lg * lg * lg)) by ring.
    pose proof (Rmult_lt_0_compat _ _ (Rmult_lt_0_compat _ _ (proj1 LG) (proj1 LG)) (proj1 LG)). lra. }
  assert (M1 : lg * yr / f <= lg * 0.4).
  { unfold Rdiv. rewrite Rmult_assoc. apply Rmult_le_compat_l; [lra|]. apply (Rmult_le_reg_r f); [exact F|].
    rewrite Rmult_assoc, Rinv_l by lra. lra. }
  assert (M : lg * yr / f - 0.38 * (1 - exp (-2 * lg)) < 0).
  { assert (lg * lg < lg * 0.1) by (apply Rmult_lt_compat_l; lra). lra. }
  unfold py_sqrt at 1. unfold Rltb at 1. destruct (Rlt_dec _ 0) as [_|N]; [reflexivity|contradiction].
Qed.

(* ---- the routine ---- *)
Lemma C93_uplink_l sc st w : constructed sc -> sc_dir sc = "uplink" -> sc_elev sc < 90 ->
  s_weather st = Some w -> -90 <= w_latitude w < 89 -> w_temperature w <> 0 ->
  pathloss_additional sc st = Err (ValueError "math domain error").
Proof.
  intros Hc HD HE HW HL HT. destruct (constructed_accepted sc Hc) as [_ B EL _ _ _].
  destruct (rain_yr_supported (sc_fc sc) (sc_elev sc * PI / 180) B) as (F & Y1 & Y2).
  unfold pathloss_additional. rewrite HW, HD. cbv zeta. destruct (Req_EM_T (w_temperature w) 0) as [Z|_]; [contradiction|].
  change (String.eqb "uplink" "downlink") with false. cbv iota.
  rewrite rain_att_ground by (assumption || lra). reflexivity.
Qed.

Lemma C93_downlink_l sc st w bs : constructed sc -> sc_dir sc = "downlink" ->
  s_weather st = Some w -> s_bs_loc st = Some bs -> -90 <= w_latitude w -> w_temperature w <> 0 ->
  14 <= vz (t_at bs 0%nat 0%nat) ->
  pathloss_additional sc st =
    Err (if Nat.eqb (t_batch bs * t_num bs) 1 then ValueError "math domain error"
         else TypeError "only size-1 arrays can be converted to Python scalars").
Proof.
  intros Hc HD HW HB HL HT HZ. destruct (constructed_accepted sc Hc) as [_ B EL _ _ _].
  destruct (rain_yr_supported (sc_fc sc) (sc_elev sc * PI / 180) B) as (F & Y1 & Y2).
  unfold pathloss_additional. rewrite HW, HD, HB. cbv zeta. destruct (Req_EM_T (w_temperature w) 0) as [Z|_]; [contradiction|].
  change (String.eqb "downlink" "downlink") with true. cbv iota.
  destruct (Nat.eqb (t_batch bs * t_num bs) 1); [|reflexivity].
  assert (HH : 5 - 0.075 * (w_latitude w - 23) < vz (t_at bs 0%nat 0%nat)) by lra.
  destruct (rain_att w (sc_fc sc / 10 ^ 9) (sc_elev sc) (vz (t_at bs 0%nat 0%nat)) true) as [x|x] eqn:R;
    destruct (rain_att_above _ _ _ _ _ _ Y1 EL HH R) as [K|(_ & K & _)]; try discriminate.
  injection K as ->. reflexivity.
Qed.

(* one satellite 600 km up, one UT below it; default weather *)
Definition lone_args : topo_args :=
  {| a_ut_loc := Some (T 1 1 (fun _ _ => V3 100 0 1.5)); a_bs_loc := Some (T 1 1 (fun _ _ => V3 0 0 600000));
     a_ut_ori := Some (T 1 1 (fun _ _ => V3 0 0 0)); a_bs_ori := Some (T 1 1 (fun _ _ => V3 0 0 0));
     a_ut_vel := Some (T 1 1 (fun _ _ => V3 0 0 0)); a_in := Some (T 1 1 (fun _ _ => false)); a_los := None;
     a_weather := no_weather; a_doppler := None |}.

Lemma C93_example_l dir dr : dir = "uplink" \/ dir = "downlink" -> exists sc st',
  constructed sc /\ sc_dir sc = dir /\ sc_elev sc = 45 /\ set_topology sc (init_state sc) lone_args dr = (st', Ok true) /\
  pathloss_additional sc st' = Err (ValueError "math domain error").
Proof.
  intros HD.
  assert (H : is_ok (scenario_init Urban 2e9 ex_array ex_array dir 45 true true true)).
  { apply construct_iff. unfold supported_config, in_S_band; cbn. repeat split; auto; lra. }
  destruct H as [sc E0]. exists sc.
  assert (Hc : constructed sc) by (repeat eexists; exact E0). assert (Ha := constructed_accepted sc Hc).
  destruct (init_accepted _ _ _ _ _ _ _ _ _ _ E0) as (_ & _ & EF & ED & EE & _).
  assert (E : exists st', set_topology sc (init_state sc) lone_args dr = (st', Ok true)).
  { unfold set_topology. cbn [lone_args a_ut_loc a_bs_loc a_in a_ut_ori a_bs_ori a_ut_vel given orb negb].
    unfold need_for_update. cbn [lone_args a_ut_loc given orb].
    cbn [store_args s_ut_loc s_bs_loc s_in lone_args a_ut_loc a_bs_loc a_in or_else].
    apply update_succeeds; [exact Ha | reflexivity | reflexivity | cbn; lia | reflexivity | reflexivity]. }
  destruct E as (st' & E). exists st'. split; [exact Hc|]. split; [exact ED|]. split; [exact EE|]. split; [exact E|].
  destruct (step_cases _ _ _ _ _ _ Ha E) as [(_ & _ & K)|(_ & _ & S & S8)]; [destruct K; discriminate|].
  destruct S as (_ & S2 & _).
  cbn [store_args lone_args a_bs_loc a_weather or_else s_bs_loc] in S2, S8.
  destruct HD as [->| ->].
  - eapply C93_uplink_l; [exact Hc|exact ED|lra|exact S8|cbn; lra|cbn; lra].
  - erewrite C93_downlink_l; [|exact Hc|exact ED|exact S8|exact S2|cbn; lra|cbn; lra|cbn; lra]. reflexivity.
Qed.
