(* Lemmas for C109: the power budget in finite precision. *)
From Coq Require Import Reals ZArith Lra Lia Machin.
From Verif Require Import M_Base M_Params M_Geometry M_Float S_Float L_Float L_Position L_PowerFp S_Pathloss M_BudgetFp S_BudgetFp S_Range L_Range.
Open Scope R_scope.

Lemma ln10_ge : 2 <= ln 10.
Proof.
  assert (A : exp 1 <= 3) by apply exp_le_3.
  assert (B : exp 2 <= 10) by (replace 2 with (1 + 1) by ring; rewrite exp_plus; pose proof (exp_pos 1); nra).
  rewrite <- (ln_exp 2). destruct B as [B|B]; [left; apply ln_increasing; [apply exp_pos | exact B] | rewrite B; lra].
Qed.

Lemma ln_near e x y : 0 < x -> 0 <= e <= 1 / 2 -> near e x y -> Rabs (ln y - ln x) <= 2 * e.
Proof.
  intros Hx He N. apply near_bounds in N. assert (Hy : 0 < y) by nra.
  assert (A : y / x <= 1 + e) by (apply (Rmult_le_reg_r x); [exact Hx|]; unfold Rdiv; rewrite Rmult_assoc, Rinv_l by lra; lra).
  assert (B : 1 - e <= y / x) by (apply (Rmult_le_reg_r x); [exact Hx|]; unfold Rdiv; rewrite Rmult_assoc, Rinv_l by lra; lra).
  assert (P : 0 < y / x) by lra.
  replace (ln y - ln x) with (ln (y / x)) by (unfold Rdiv; rewrite ln_mult by (try apply Rinv_0_lt_compat; lra); rewrite ln_Rinv by lra; ring).
  set (q := y / x) in *. clearbody q.
  assert (E1 := exp_ineq1_le (ln q)). rewrite exp_ln in E1 by exact P.
  assert (E2 := exp_ineq1_le (- ln q)). rewrite exp_Ropp, exp_ln in E2 by exact P.
  assert (I : / q <= 1 + 2 * e).
  { apply (Rmult_le_reg_r q); [exact P|]. rewrite Rinv_l by lra. nra. }
  apply Rabs_le. lra.
Qed.

Section Budget.
  Context (p : Z) (Hp : (24 <= p)%Z).
  Let u := powerRZ 2 (- p).

  Lemma ub : 0 < u <= 1 / 16777216.
  Proof. apply unit_24. exact Hp. Qed.

  Lemma abs_step a M x y : Rabs (y - x) <= a * u -> Rabs x <= M -> 0 <= a <= 10000 -> Rabs (rnd p y - x) <= (a + M + 0.001) * u.
  Proof.
    intros N HM Ha. pose proof ub as U. pose proof (rnd_rel p y) as RR. fold u in RR.
    assert (Y : Rabs y <= M + 0.001).
    { replace y with ((y - x) + x) by ring. eapply Rle_trans; [apply Rabs_triang|]. assert (a * u <= 0.001) by nra. lra. }
    replace (rnd p y - x) with ((rnd p y - y) + (y - x)) by ring. eapply Rle_trans; [apply Rabs_triang|].
    assert (u * Rabs y <= u * (M + 0.001)) by (apply Rmult_le_compat_l; lra). lra.
  Qed.

  Lemma abs_add a b c x y x' y' : Rabs (x' - x) <= a * u -> Rabs (y' - y) <= b * u -> a + b <= c -> Rabs (x' + y' - (x + y)) <= c * u.
  Proof.
    intros A B C. pose proof ub as U. replace (x' + y' - (x + y)) with ((x' - x) + (y' - y)) by ring.
    eapply Rle_trans; [apply Rabs_triang|]. nra.
  Qed.

  Lemma abs_weaken a b x y : Rabs (y - x) <= a * u -> a <= b -> Rabs (y - x) <= b * u.
  Proof. intros A B. pose proof ub. nra. Qed.

  Lemma log10_step a M A x : Rabs (ln x - A) <= a * u -> Rabs A <= M -> 0 <= a <= 100 -> M <= 20 ->
    Rabs (log10_fp p x - A / ln 10) <= (0.51 * a + 1.52 * M + 0.003) * u.
  Proof.
    intros N HM Ha HM2. pose proof ub as U. pose proof ln10_ge as L1. pose proof ln10_le as L2.
    assert (S := abs_step a M A (ln x) N HM ltac:(lra)). set (A' := rnd p (ln x)) in *.
    pose proof (near_rnd0 p (ln 10) ltac:(lra)) as R1. fold u in R1. set (L' := rnd p (ln 10)) in *.
    assert (M0 : 0 <= M) by (pose proof (Rabs_pos A); lra).
    assert (LP : 1.99 <= L') by (pose proof (Rle_abs (- (L' - ln 10))) as RA; rewrite Rabs_Ropp in RA; nra).
    assert (Q : Rabs (A' / L' - A / ln 10) <= (0.504 * a + 1.008 * M + 0.001) * u).
    { replace (A' / L' - A / ln 10) with (((A' - A) + A / ln 10 * (ln 10 - L')) * / L') by (field; lra).
      rewrite Rabs_mult, (Rabs_right (/ L')) by (apply Rle_ge, Rlt_le, Rinv_0_lt_compat; lra).
      assert (I : / L' <= / 1.99) by (apply Rinv_le_contravar; lra).
      assert (X : Rabs (A' - A + A / ln 10 * (ln 10 - L')) <= (a + 2 * M + 0.001) * u).
      { eapply Rle_trans; [apply Rabs_triang|]. rewrite Rabs_mult. rewrite <- (Rabs_Ropp (ln 10 - L')).
        replace (- (ln 10 - L')) with (L' - ln 10) by ring.
        unfold Rdiv. rewrite Rabs_mult, (Rabs_right (/ ln 10)) by (apply Rle_ge, Rlt_le, Rinv_0_lt_compat; lra).
        assert (Y : Rabs A * / ln 10 * Rabs (L' - ln 10) <= M * u).
        { apply Rle_trans with (Rabs A * / ln 10 * (u * ln 10)).
          - apply Rmult_le_compat_l; [apply Rmult_le_pos; [apply Rabs_pos | apply Rlt_le, Rinv_0_lt_compat; lra] | exact R1].
          - replace (Rabs A * / ln 10 * (u * ln 10)) with (Rabs A * u) by (field; lra). apply Rmult_le_compat_r; lra. }
        lra. }
      apply Rle_trans with ((a + 2 * M + 0.001) * u * / 1.99).
      - apply Rmult_le_compat; [apply Rabs_pos | apply Rlt_le, Rinv_0_lt_compat; lra | exact X | exact I].
      - assert (I2 : / 1.99 <= 0.503) by (apply (Rmult_le_reg_l 1.99); [lra | rewrite Rinv_r by lra; lra]).
        assert (W : 0 <= (a + 2 * M + 0.001) * u) by (apply Rmult_le_pos; lra).
        apply Rle_trans with ((a + 2 * M + 0.001) * u * 0.503); [apply Rmult_le_compat_l; lra|].
        replace ((a + 2 * M + 0.001) * u * 0.503) with ((0.503 * a + 1.006 * M + 0.000503) * u) by lra.
        apply Rmult_le_compat_r; lra. }
    assert (MM : Rabs (A / ln 10) <= M / 2).
    { unfold Rdiv. rewrite Rabs_mult, (Rabs_right (/ ln 10)) by (apply Rle_ge, Rlt_le, Rinv_0_lt_compat; lra).
      apply Rmult_le_compat; [apply Rabs_pos | apply Rlt_le, Rinv_0_lt_compat; lra | exact HM | apply Rinv_le_contravar; lra]. }
    assert (F := abs_step _ _ _ _ Q MM ltac:(lra)). unfold log10_fp. fold A' L'. eapply abs_weaken; [exact F|]. lra.
  Qed.

  Lemma ghz_near fc : supported_carrier fc -> near (2.2 * u) (fc / 10 ^ 9) (carrier_ghz_fp p fc).
  Proof.
    intros Hf. apply supported_pos in Hf. unfold carrier_ghz_fp. fold u.
    apply (kn_step p Hp 1.1 2.2); [| lra | lra |].
    - apply Rmult_le_pos; [lra | apply Rlt_le, Rinv_0_lt_compat; lra].
    - assert (E : rnd p (10 ^ 9) = 10 ^ 9).
      { replace (10 ^ 9) with (IZR 1953125 * powerRZ 2 9) by (change (powerRZ 2 9) with (2 ^ 9); lra).
        apply rnd_grid; [lia|]. split; [lia|]. apply Z.le_trans with (2 ^ 24)%Z; [lia|]. apply Z.pow_le_mono_r; lia. }
      rewrite E. apply (kn_quot p Hp 1 0); try lra; [apply (kn_rnd p); lra | apply (kn_refl p); lra].
  Qed.

  Lemma ln_bound k x : 1 <= x <= 10 ^ k -> 0 <= ln x <= INR k * (14 / 6).
  Proof.
    intros H. split.
    - rewrite <- ln_1. destruct (Rle_lt_or_eq_dec _ _ (proj1 H)) as [L | <-]; [left; apply ln_increasing; lra | lra].
    - apply Rle_trans with (ln (10 ^ k)).
      + destruct (Rle_lt_or_eq_dec _ _ (proj2 H)) as [L | ->]; [left; apply ln_increasing; lra | lra].
      + rewrite <- Rpower_pow by lra. unfold Rpower. rewrite ln_exp. apply Rmult_le_compat_l; [apply pos_INR | apply ln10_le].
  Qed.

  Lemma fspl_near fc d : supported_carrier fc -> 1 <= d <= 10 ^ 8 -> Rabs (fspl_fp p fc d - free_space fc d) <= 1390 * u.
  Proof.
    intros Hf Hd. pose proof ub as U. pose proof ln10_ge as L1. pose proof ln10_le as L2.
    pose proof (ghz_near fc Hf) as G. apply supported_pos in Hf.
    assert (F1 : 1 <= fc / 10 ^ 9 <= 10 ^ 2) by (split; apply (Rmult_le_reg_r (10 ^ 9)); try lra; unfold Rdiv; rewrite Rmult_assoc, Rinv_l; lra).
    assert (B1 := ln_bound 2 _ F1). assert (B2 := ln_bound 8 _ Hd). cbn [INR] in B1, B2.
    assert (N1 : Rabs (ln (carrier_ghz_fp p fc) - ln (fc / 10 ^ 9)) <= 4.4 * u).
    { eapply Rle_trans; [apply (ln_near (2.2 * u)); [lra | lra | exact G] | lra]. }
    assert (T1 := log10_step 4.4 4.7 _ _ N1 ltac:(apply Rabs_le; lra) ltac:(lra) ltac:(lra)).
    assert (T2 := log10_step 0 18.7 (ln d) d ltac:(rewrite Rminus_eq_0, Rabs_R0; lra) ltac:(apply Rabs_le; lra) ltac:(lra) ltac:(lra)).
    assert (M1 : 0 <= ln (fc / 10 ^ 9) / ln 10 <= 2.4).
    { split; [apply Rmult_le_pos; [lra | apply Rlt_le, Rinv_0_lt_compat; lra]|].
      apply (Rmult_le_reg_r (ln 10)); [lra|]. unfold Rdiv. rewrite Rmult_assoc, Rinv_l; lra. }
    assert (M2 : 0 <= ln d / ln 10 <= 9.4).
    { split; [apply Rmult_le_pos; [lra | apply Rlt_le, Rinv_0_lt_compat; lra]|].
      apply (Rmult_le_reg_r (ln 10)); [lra|]. unfold Rdiv. rewrite Rmult_assoc, Rinv_l; lra. }
    set (a := ln (fc / 10 ^ 9) / ln 10) in *. set (b := ln d / ln 10) in *.
    set (a' := log10_fp p (carrier_ghz_fp p fc)) in *. set (b' := log10_fp p d) in *.
    assert (T3 : Rabs (rnd p (20 * a') - 20 * a) <= 240 * u).
    { eapply abs_weaken; [apply (abs_step 190 48)|]; [| apply Rabs_le; lra | lra | lra].
      replace (20 * a' - 20 * a) with (20 * (a' - a)) by ring. rewrite Rabs_mult, (Rabs_right 20) by lra. nra. }
    assert (T4 : Rabs (rnd p (20 * b') - 20 * b) <= 758 * u).
    { eapply abs_weaken; [apply (abs_step 569 188)|]; [| apply Rabs_le; lra | lra | lra].
      replace (20 * b' - 20 * b) with (20 * (b' - b)) by ring. rewrite Rabs_mult, (Rabs_right 20) by lra. nra. }
    assert (T5 : Rabs (rnd p 32.45 - 32.45) <= 33 * u).
    { eapply abs_weaken; [apply (abs_step 0 32.45)|]; [rewrite Rminus_eq_0, Rabs_R0; lra | apply Rabs_le; lra | lra | lra]. }
    assert (T6 := abs_step 273 81 _ _ (abs_add _ _ 273 _ _ _ _ T5 T3 ltac:(lra)) ltac:(apply Rabs_le; lra) ltac:(lra)).
    assert (T7 := abs_step 1113 269 _ _ (abs_add _ _ 1113 _ _ _ _ T6 T4 ltac:(lra)) ltac:(apply Rabs_le; lra) ltac:(lra)).
    unfold fspl_fp, free_space. fold a b a' b'. eapply abs_weaken; [exact T7|]. lra.
  Qed.

  Lemma free_space_bounds fc d : supported_carrier fc -> 1 <= d <= 10 ^ 8 -> Rabs (free_space fc d) <= 269.
  Proof.
    intros Hf Hd. pose proof ln10_ge as L1. apply supported_pos in Hf.
    assert (F1 : 1 <= fc / 10 ^ 9 <= 10 ^ 2) by (split; apply (Rmult_le_reg_r (10 ^ 9)); try lra; unfold Rdiv; rewrite Rmult_assoc, Rinv_l; lra).
    assert (B1 := ln_bound 2 _ F1). assert (B2 := ln_bound 8 _ Hd). cbn [INR] in B1, B2.
    unfold free_space.
    assert (Q : forall x m, 0 <= x <= m -> 0 <= x / ln 10 <= m / 2).
    { intros x m H. split; [apply Rmult_le_pos; [lra | apply Rlt_le, Rinv_0_lt_compat; lra]|].
      apply Rmult_le_compat; [lra | apply Rlt_le, Rinv_0_lt_compat; lra | lra | apply Rinv_le_contravar; lra]. }
    apply Q in B1, B2. apply Rabs_le. lra.
  Qed.

  Lemma basic_near (los : bool) fc d cl sl sn : supported_carrier fc -> 1 <= d <= 10 ^ 8 -> Rabs (if los then sl else sn) <= 100 -> 0 <= cl <= 100 ->
    Rabs (pl_basic_fp p los fc d cl sl sn - (free_space fc d + (if los then sl else sn) + (if los then 0 else cl))) <= 2231 * u.
  Proof.
    intros Hf Hd Hs Hc. assert (N := fspl_near fc d Hf Hd). assert (B := free_space_bounds fc d Hf Hd).
    unfold pl_basic_fp. set (f := fspl_fp p fc d) in *. set (x := free_space fc d) in *. clearbody f x. pose proof ub as U.
    assert (T : forall s, Rabs s <= 100 -> Rabs (rnd p (f + s) - (x + s)) <= 1759.1 * u).
    { intros s HS. eapply abs_weaken; [apply (abs_step 1390 369)|]; [| | lra | lra].
      - replace (f + s - (x + s)) with (f - x) by ring. exact N.
      - eapply Rle_trans; [apply Rabs_triang | lra]. }
    destruct los.
    - rewrite Rplus_0_r. eapply abs_weaken; [apply T; exact Hs | lra].
    - eapply abs_weaken; [apply (abs_step 1759.1 469)|]; [| | lra | lra].
      + replace (rnd p (f + sn) + cl - (x + sn + cl)) with (rnd p (f + sn) - (x + sn)) by ring. apply T. exact Hs.
      + eapply Rle_trans; [apply Rabs_triang|]. assert (Rabs (x + sn) <= 369) by (eapply Rle_trans; [apply Rabs_triang | lra]).
        rewrite (Rabs_right cl) by lra. lra.
  Qed.

  Lemma total_near (los : bool) fc d cl sl sn g s l : supported_carrier fc -> 1 <= d <= 10 ^ 8 -> moderate (if los then sl else sn) cl g s ->
    link_loss los (free_space fc d) (if los then sl else sn) cl g s l ->
    Rabs l <= 669 /\ Rabs (pl_total_fp p (pl_basic_fp p los fc d cl sl sn) g s - l) <= 4142 * u.
  Proof.
    intros Hf Hd (Hs & Hc & Hg & Hsc) ->. pose proof ub as U.
    assert (N := basic_near los fc d cl sl sn Hf Hd Hs Hc). assert (B := free_space_bounds fc d Hf Hd).
    unfold pl_total_fp. set (b' := pl_basic_fp p los fc d cl sl sn) in *.
    set (b := free_space fc d + (if los then sl else sn) + (if los then 0 else cl)) in *.
    assert (B1 : Rabs b <= 469).
    { unfold b. eapply Rle_trans; [apply Rabs_triang|]. assert (Rabs (if los then 0 else cl) <= 100) by (destruct los; apply Rabs_le; lra).
      assert (Rabs (free_space fc d + (if los then sl else sn)) <= 369) by (eapply Rle_trans; [apply Rabs_triang | lra]). lra. }
    clearbody b b'.
    assert (B2 : Rabs (b + g) <= 569) by (eapply Rle_trans; [apply Rabs_triang | rewrite (Rabs_right g); lra]).
    assert (B3 : Rabs (b + g + s) <= 669) by (eapply Rle_trans; [apply Rabs_triang | rewrite (Rabs_right s); lra]).
    split; [exact B3|].
    assert (T1 : Rabs (rnd p (b' + g) - (b + g)) <= 2801 * u).
    { eapply abs_weaken; [apply (abs_step 2231 569)|]; [| exact B2 | lra | lra]. replace (b' + g - (b + g)) with (b' - b) by ring. exact N. }
    assert (T2 : Rabs (rnd p (rnd p (b' + g) + s) - (b + g + s)) <= 3471 * u).
    { eapply abs_weaken; [apply (abs_step 2801 669)|]; [| exact B3 | lra | lra].
      replace (rnd p (b' + g) + s - (b + g + s)) with (rnd p (b' + g) - (b + g)) by ring. exact T1. }
    eapply abs_weaken; [apply (abs_step 3471 669)|]; [| exact B3 | lra | lra]. rewrite Rplus_0_r. exact T2.
  Qed.

  Lemma amplitude_unique l sf a : 0 < sf -> amplitude_of l sf a -> a = exp (- l / 20 * ln 10) * sqrt sf.
  Proof.
    intros Hs [A E]. rewrite <- (sqrt_square a) by lra. rewrite E. unfold Rpower.
    rewrite sqrt_mult by (try (left; apply exp_pos); lra). f_equal.
    apply sqrt_lem_1; [left; apply exp_pos | left; apply exp_pos |]. rewrite <- exp_plus. f_equal. field.
  Qed.

  Lemma gain_near l l' sf a : 0 < sf -> Rabs l <= 700 -> Rabs (l' - l) <= 4200 * u -> amplitude_of l sf a -> near (600 * u) a (gain_fp p l' sf).
  Proof.
    intros Hs Hl N A. apply amplitude_unique in A; [|exact Hs]. subst a. pose proof ub as U. pose proof ln10_le as L2. pose proof ln10_ge as L1.
    assert (S := sqrt_lt_R0 sf Hs). unfold gain_fp, pow10, Rpower.
    assert (T : Rabs (rnd p (- l' / 20) - (- l / 20)) <= 245.1 * u).
    { eapply abs_weaken; [apply (abs_step 210 35)|]; [| | lra | lra].
      - replace (- l' / 20 - - l / 20) with (- (/ 20) * (l' - l)) by field. rewrite Rabs_mult, Rabs_Ropp, (Rabs_right (/ 20)) by lra. lra.
      - replace (- l / 20) with (- (/ 20) * l) by field. rewrite Rabs_mult, Rabs_Ropp, (Rabs_right (/ 20)) by lra. lra. }
    assert (X : near (572.2 * u) (exp (- l / 20 * ln 10)) (exp (rnd p (- l' / 20) * ln 10))).
    { replace 572.2 with (572 + 0.2) by lra. apply (exp_factor p Hp); [lra|].
      rewrite <- Rmult_minus_distr_r, Rabs_mult, (Rabs_right (ln 10)) by lra. fold u.
      apply Rle_trans with (245.1 * u * (14 / 6)); [apply Rmult_le_compat; try apply Rabs_pos; lra | lra]. }
    assert (E := exp_pos (- l / 20 * ln 10)).
    apply (kn_step p Hp 576 600); [apply Rmult_le_pos; lra | lra | lra |].
    apply (kn_mult p Hp 573.3 1); try lra.
    - apply (kn_step p Hp 572.2); try lra. exact X.
    - apply (kn_rnd p). lra.
  Qed.
End Budget.

Lemma PI_bounds4 : 3.1411 <= PI <= 3.1418.
Proof.
  pose proof (PI_2_3_7_ineq 2) as H. unfold tg_alt, PI_2_3_7_tg, Ratan_seq in H. cbn [sum_f_R0 Nat.mul Nat.add INR pow] in H.
  rewrite ?Rmult_1_r in H. set (i := / 3) in *. set (j := / 7) in *.
  assert (I : i = 1 / 3) by (unfold i; lra). assert (J : j = 1 / 7) by (unfold j; lra). clearbody i j. subst. lra.
Qed.

Lemma ln_pow_le x y m n : 0 < x -> 0 < y -> x ^ m <= y ^ n -> INR m * ln x <= INR n * ln y.
Proof.
  intros Hx Hy H. assert (X := pow_lt x m Hx).
  rewrite <- (Rpower_pow m x), <- (Rpower_pow n y) in H by assumption. unfold Rpower in H.
  apply Rnot_lt_le. intros C. apply exp_increasing in C. lra.
Qed.

Lemma C109_free_space_l : forall p fc d, (24 <= p <= 53)%Z -> supported_carrier fc -> 1 <= d <= 10 ^ 8 ->
  Rabs (fspl_fp p fc d - free_space fc d) <= 1400 * powerRZ 2 (- p).
Proof.
  intros p fc d Hp Hf Hd. assert (U := ub p ltac:(lia)). eapply Rle_trans; [apply fspl_near; [lia | assumption..] | nra].
Qed.

Lemma C109_friis_l : forall fc d l, 0 < fc -> 0 < d -> loss_of (friis fc d) l -> Rabs (free_space fc d - l) <= 0.006.
Proof.
  intros fc d l Hf Hd [_ ->]. pose proof PI_bounds4 as P. pose proof ln10_ge as L1.
  set (k := 4 * PI * 10 ^ 9 / 299792458). assert (K : 41.91 <= k <= 41.92).
  { unfold k. split; apply (Rmult_le_reg_r 299792458); try lra; unfold Rdiv; rewrite Rmult_assoc, Rinv_l; lra. }
  assert (E : friis fc d = / ((fc / 10 ^ 9 * d * k) * (fc / 10 ^ 9 * d * k))).
  { unfold friis, k. field. lra. }
  assert (F : 0 < fc / 10 ^ 9) by (apply Rmult_lt_0_compat; [lra | apply Rinv_0_lt_compat; lra]).
  assert (G : 0 < fc / 10 ^ 9 * d) by (apply Rmult_lt_0_compat; lra).
  rewrite E. unfold free_space. set (q := fc / 10 ^ 9) in *. clearbody q k.
  rewrite ln_Rinv, !ln_mult by (repeat apply Rmult_lt_0_compat; lra).
  assert (A1 : 73 * ln 10 <= 45 * ln k).
  { replace 73 with (INR 73) by (cbn [INR]; lra). replace 45 with (INR 45) by (cbn [INR]; lra). apply ln_pow_le; [lra | lra |].
    apply Rle_trans with (41.91 ^ 45); [lra | apply pow_incr; lra]. }
  assert (A2 : 53 * ln k <= 86 * ln 10).
  { replace 53 with (INR 53) by (cbn [INR]; lra). replace 86 with (INR 86) by (cbn [INR]; lra). apply ln_pow_le; [lra | lra |].
    apply Rle_trans with (41.92 ^ 53); [apply pow_incr; lra | lra]. }
  replace (32.45 + 20 * (ln q / ln 10) + 20 * (ln d / ln 10) - -10 * (- (ln q + ln d + ln k + (ln q + ln d + ln k)) / ln 10))
    with (32.45 - 20 * (ln k / ln 10)).
  2: { set (a := ln q). set (b := ln d). set (c := ln k). set (t := ln 10) in *. clearbody a b c t.
       set (r := 32.45). clearbody r. field. lra. }
  assert (R1 : ln k / ln 10 <= 86 / 53) by (apply (Rmult_le_reg_r (ln 10)); [lra|]; unfold Rdiv; rewrite (Rmult_assoc (ln k)), Rinv_l; lra).
  assert (R2 : 73 / 45 <= ln k / ln 10) by (apply (Rmult_le_reg_r (ln 10)); [lra|]; unfold Rdiv; rewrite (Rmult_assoc (ln k)), Rinv_l; lra).
  apply Rabs_le. lra.
Qed.

Lemma C109_pathloss_l : forall p (los : bool) fc d cl sf_los sf_nlos gas scint l, (24 <= p <= 53)%Z -> supported_carrier fc -> 1 <= d <= 10 ^ 8 ->
  moderate (if los then sf_los else sf_nlos) cl gas scint ->
  link_loss los (free_space fc d) (if los then sf_los else sf_nlos) cl gas scint l ->
  Rabs (pl_total_fp p (pl_basic_fp p los fc d cl sf_los sf_nlos) gas scint - l) <= 4200 * powerRZ 2 (- p).
Proof.
  intros p los fc d cl sl sn g s l Hp Hf Hd M L. assert (U := ub p ltac:(lia)).
  destruct (total_near p ltac:(lia) los fc d cl sl sn g s l Hf Hd M L) as [_ T]. nra.
Qed.

Lemma C109_gain_l : forall p (los : bool) fc d cl sf_los sf_nlos gas scint sf l a, (24 <= p <= 53)%Z -> supported_carrier fc -> 1 <= d <= 10 ^ 8 ->
  moderate (if los then sf_los else sf_nlos) cl gas scint -> 0 < sf ->
  link_loss los (free_space fc d) (if los then sf_los else sf_nlos) cl gas scint l -> amplitude_of l sf a ->
  Rabs (gain_fp p (pl_total_fp p (pl_basic_fp p los fc d cl sf_los sf_nlos) gas scint) sf - a) <= 600 * powerRZ 2 (- p) * a.
Proof.
  intros p los fc d cl sl sn g s sf l a Hp Hf Hd M Hs L A. assert (U := ub p ltac:(lia)).
  destruct (total_near p ltac:(lia) los fc d cl sl sn g s l Hf Hd M L) as [B T].
  assert (G := gain_near p ltac:(lia) l (pl_total_fp p (pl_basic_fp p los fc d cl sl sn) g s) sf a Hs ltac:(lra) ltac:(nra) A).
  exact G.
Qed.

Lemma C109_satellite_l : forall (los : bool) fc e h d cl sf_los sf_nlos gas scint l, supported_carrier fc -> 10 <= e <= 90 -> 5e5 <= h ->
  satellite_distance e h d -> d <= 9e7 -> moderate (if los then sf_los else sf_nlos) cl gas scint ->
  link_loss los (free_space fc d) (if los then sf_los else sf_nlos) cl gas scint l ->
  Rabs (pl_total_fp 24 (pl_basic_fp 24 los fc (slant_range_fp 24 e (rnd 24 h)) cl sf_los sf_nlos) gas scint - l) <= 4e-4.
Proof.
  intros los fc e h d cl sl sn g s l Hf He Hh D Hd M L.
  assert (P := C94_pathloss_l fc e h d He Hh D). assert (N := C94_accuracy_l e h d He Hh D).
  assert (d1 : 2 <= d).
  { destruct D as [D0 D1]. pose proof (SIN_bound (e * (PI / 180))). apply Rnot_lt_le. intros C. nra. }
  set (r := slant_range_fp 24 e (rnd 24 h)) in *.
  assert (Hr : 1 <= r <= 10 ^ 8).
  { pose proof (Rle_abs (r - d)). pose proof (Rle_abs (- (r - d))) as X. rewrite Rabs_Ropp in X. split; lra. }
  unfold link_loss in L.
  assert (T := C109_pathloss_l 24 los fc r cl sl sn g s _ ltac:(lia) Hf Hr M eq_refl).
  set (t := pl_total_fp _ _ _ _) in *. set (l0 := _ + _ + _ + _ + _) in T.
  assert (E : l0 - l = free_space fc r - free_space fc d) by (unfold l0; rewrite L; ring).
  replace (t - l) with ((t - l0) + (l0 - l)) by ring. eapply Rle_trans; [apply Rabs_triang|]. rewrite E.
  pose proof (ub 24 ltac:(lia)) as U. change (Z.opp 24) with (-24)%Z in U, T. lra.
Qed.

Lemma C109_numbers_l : 1400 * powerRZ 2 (- 24) <= 9e-5 /\ 4200 * powerRZ 2 (- 24) <= 2.6e-4 /\ 600 * powerRZ 2 (- 24) <= 4e-5 /\
  4200 * powerRZ 2 (- 53) <= 5e-13.
Proof.
  assert (A := ub 24 ltac:(lia)). change (Z.opp 24) with (-24)%Z in A. repeat split; try lra. change (powerRZ 2 (- 53)) with (/ 2 ^ 53).
  apply (Rmult_le_reg_r (2 ^ 53)); [lra|]. rewrite Rmult_assoc, Rinv_l; lra.
Qed.

Lemma C109_example_l : exists d l a, supported_carrier 2e9 /\ satellite_distance 90 600000 d /\ 1 <= d <= 9e7 /\
  moderate 4 34.3 0.1 2.2 /\ link_loss false (free_space 2e9 d) 4 34.3 0.1 2.2 l /\ amplitude_of l 1.5 a /\
  loss_of (friis 2e9 d) (- 10 * (ln (friis 2e9 d) / ln 10)).
Proof.
  exists 600000, (free_space 2e9 600000 + 4 + 34.3 + 0.1 + 2.2).
  set (l := _ + 2.2). exists (sqrt (Rpower 10 (- l / 10) * 1.5)).
  assert (Q : 0 < Rpower 10 (- l / 10) * 1.5) by (apply Rmult_lt_0_compat; [apply exp_pos | lra]).
  repeat split; try (unfold moderate; lra).
  - left. lra.
  - apply (proj2 (zenith_distance 600000 ltac:(lra))).
  - apply Rabs_le. lra.
  - apply sqrt_lt_R0. exact Q.
  - apply sqrt_sqrt. lra.
  - unfold friis. apply pow_lt. pose proof PI_RGT_0. apply Rmult_lt_0_compat; [lra | apply Rinv_0_lt_compat; nra].
Qed.

(* ---- rounding is monotone ---- *)
Lemma nearest_mono y z : y <= z -> (nearest_int y <= nearest_int z)%Z.
Proof.
  intros H. apply Z.le_ngt. intros C. pose proof (nearest_err y) as A. pose proof (nearest_err z) as B.
  apply abs_le_inv in A, B. assert (D : IZR (nearest_int z + 1) <= IZR (nearest_int y)) by (apply IZR_le; lia).
  rewrite plus_IZR in D. assert (E : y = z) by lra. rewrite E in C. lia.
Qed.

Lemma rnd_mono_pos p x y : (1 <= p)%Z -> 0 < x <= y -> rnd p x <= rnd p y.
Proof.
  intros Hp [X Y]. assert (Y0 : 0 < y) by lra. rewrite !rnd_pos_eq by assumption.
  destruct (mag_spec x X) as [A B]. destruct (mag_spec y Y0) as [C D].
  pose proof (ulp_pos p x) as U. pose proof (ulp_pos p y) as V.
  assert (M : (mag x < mag y + 1)%Z) by (apply two_z_lt; lra).
  destruct (Z.eq_dec (mag x) (mag y)) as [E | N].
  - assert (F : ulp p x = ulp p y) by (unfold ulp; rewrite E; reflexivity). rewrite F. apply Rmult_le_compat_r; [lra|].
    apply IZR_le, nearest_mono. apply Rmult_le_compat_r; [left; apply Rinv_0_lt_compat; exact V | exact Y].
  - assert (P1 : IZR (nearest_int (x / ulp p x)) * ulp p x <= powerRZ 2 (mag x + 1)).
    { replace (powerRZ 2 (mag x + 1)) with (IZR (2 ^ p) * ulp p x)
        by (rewrite <- two_z_nonneg by lia; unfold ulp; rewrite <- two_z_add; f_equal; lia).
      apply Rmult_le_compat_r; [lra|]. apply IZR_le. rewrite <- (nearest_int_Z (2 ^ p)). apply nearest_mono.
      apply (Rmult_le_reg_r (ulp p x)); [exact U|]. unfold Rdiv. rewrite Rmult_assoc, Rinv_l, Rmult_1_r by lra.
      rewrite <- two_z_nonneg by lia. unfold ulp. rewrite <- two_z_add. replace (p + (mag x - (p - 1)))%Z with (mag x + 1)%Z by lia. lra. }
    assert (P2 : powerRZ 2 (mag y) <= IZR (nearest_int (y / ulp p y)) * ulp p y).
    { replace (powerRZ 2 (mag y)) with (IZR (2 ^ (p - 1)) * ulp p y)
        by (rewrite <- two_z_nonneg by lia; unfold ulp; rewrite <- two_z_add; f_equal; lia).
      apply Rmult_le_compat_r; [lra|]. apply IZR_le. rewrite <- (nearest_int_Z (2 ^ (p - 1))). apply nearest_mono.
      apply (Rmult_le_reg_r (ulp p y)); [exact V|]. unfold Rdiv. rewrite Rmult_assoc, Rinv_l, Rmult_1_r by lra.
      rewrite <- two_z_nonneg by lia. unfold ulp. rewrite <- two_z_add. replace (p - 1 + (mag y - (p - 1)))%Z with (mag y) by lia. exact C. }
    assert (P3 : powerRZ 2 (mag x + 1) <= powerRZ 2 (mag y)) by (apply two_z_le; lia). lra.
Qed.

Lemma rnd_pos p x : (1 <= p)%Z -> 0 < x -> 0 < rnd p x.
Proof.
  intros Hp X. destruct (rnd_on_grid p x Hp X) as (n & k & N & ->). apply Rmult_lt_0_compat; [apply IZR_lt; lia | apply two_z_pos].
Qed.

Lemma rnd_mono p x y : (1 <= p)%Z -> x <= y -> rnd p x <= rnd p y.
Proof.
  intros Hp H. destruct (Rlt_le_dec 0 x) as [X | X]; [apply rnd_mono_pos; [exact Hp | lra]|].
  destruct (Rle_lt_dec 0 y) as [Y | Y].
  - apply Rle_trans with 0; [| apply rnd_nonneg; assumption].
    destruct (Rle_lt_or_eq_dec _ _ X) as [L | ->]; [| rewrite rnd_0; lra].
    rewrite <- (Ropp_involutive x), rnd_neg by lra. pose proof (rnd_pos p (- x) Hp ltac:(lra)). lra.
  - rewrite <- (Ropp_involutive x), <- (Ropp_involutive y), (rnd_neg p (- x)), (rnd_neg p (- y)) by lra.
    pose proof (rnd_mono_pos p (- y) (- x) Hp ltac:(lra)). lra.
Qed.

Lemma log10_fp_mono p x y : (1 <= p)%Z -> 0 < x <= y -> log10_fp p x <= log10_fp p y.
Proof.
  intros Hp [X Y]. unfold log10_fp. apply rnd_mono; [exact Hp|]. pose proof ln10_ge as L.
  apply Rmult_le_compat_r; [left; apply Rinv_0_lt_compat, rnd_pos; [exact Hp | lra]|]. apply rnd_mono; [exact Hp|].
  destruct Y as [Y | ->]; [left; apply ln_increasing; assumption | lra].
Qed.

Lemma fspl_fp_mono p fc fc' d d' : (1 <= p)%Z -> 0 < fc <= fc' -> 0 < d <= d' -> fspl_fp p fc d <= fspl_fp p fc' d'.
Proof.
  intros Hp F D. unfold fspl_fp. pose proof (rnd_pos p (10 ^ 9) Hp ltac:(lra)) as G.
  assert (I := Rinv_0_lt_compat _ G).
  assert (C : 0 < carrier_ghz_fp p fc <= carrier_ghz_fp p fc').
  { unfold carrier_ghz_fp. split; [apply rnd_pos; [exact Hp|]; apply Rmult_lt_0_compat; [apply rnd_pos; [exact Hp | lra] | exact I]|].
    apply rnd_mono; [exact Hp|]. apply Rmult_le_compat_r; [lra|]. apply rnd_mono; [exact Hp | lra]. }
  pose proof (log10_fp_mono p _ _ Hp C). pose proof (log10_fp_mono p _ _ Hp D).
  apply rnd_mono; [exact Hp|]. apply Rplus_le_compat; [apply rnd_mono; [exact Hp|]; apply Rplus_le_compat_l|]; apply rnd_mono; try exact Hp; lra.
Qed.

Lemma total_fp_mono p los fc fc' d d' cl sl sn g s : (1 <= p)%Z -> 0 < fc <= fc' -> 0 < d <= d' ->
  pl_total_fp p (pl_basic_fp p los fc d cl sl sn) g s <= pl_total_fp p (pl_basic_fp p los fc' d' cl sl sn) g s.
Proof.
  intros Hp F D. pose proof (fspl_fp_mono p _ _ _ _ Hp F D) as M. unfold pl_total_fp, pl_basic_fp.
  revert M. generalize (fspl_fp p fc d), (fspl_fp p fc' d'). intros x y M. destruct los; repeat (apply rnd_mono; [exact Hp|]; try apply Rplus_le_compat_r); exact M.
Qed.

Lemma gain_fp_mono p l l' sf : (1 <= p)%Z -> l <= l' -> gain_fp p l' sf <= gain_fp p l sf.
Proof.
  intros Hp L. unfold gain_fp, pow10, Rpower. apply rnd_mono; [exact Hp|].
  apply Rmult_le_compat_r; [apply rnd_nonneg; [apply sqrt_pos | exact Hp]|]. apply rnd_mono; [exact Hp|].
  assert (E : rnd p (- l' / 20) * ln 10 <= rnd p (- l / 20) * ln 10).
  { apply Rmult_le_compat_r; [pose proof ln10_ge; lra|]. apply rnd_mono; [exact Hp | lra]. }
  destruct E as [E | ->]; [left; apply exp_increasing; exact E | lra].
Qed.

Lemma slant_mono p e h h' : (1 <= p)%Z -> 0 <= h <= h' -> slant_range_fp p e h <= slant_range_fp p e h'.
Proof.
  intros Hp H. unfold slant_range_fp, earth_radius. apply rnd_mono; [exact Hp|]. apply Rplus_le_compat_r.
  apply rnd_mono; [exact Hp|]. apply sqrt_le_1_alt. apply rnd_mono; [exact Hp|]. apply Rplus_le_compat.
  - apply rnd_mono; [exact Hp|]. apply Rplus_le_compat_l. apply rnd_mono; [exact Hp|]. apply pow_incr. exact H.
  - apply rnd_mono; [exact Hp|]. apply Rmult_le_compat_r; [lra|]. apply rnd_mono; [exact Hp | lra].
Qed.

Lemma C109_order_l : forall p (los : bool) fc fc' d d' cl sf_los sf_nlos gas scint sf, (24 <= p <= 53)%Z -> 0 < fc <= fc' -> 0 < d <= d' ->
  let l := pl_total_fp p (pl_basic_fp p los fc d cl sf_los sf_nlos) gas scint in
  let l' := pl_total_fp p (pl_basic_fp p los fc' d' cl sf_los sf_nlos) gas scint in
  l <= l' /\ gain_fp p l' sf <= gain_fp p l sf.
Proof.
  intros p los fc fc' d d' cl sl sn g s sf Hp F D l l'.
  assert (M : l <= l') by (apply total_fp_mono; [lia | assumption..]). split; [exact M | apply gain_fp_mono; [lia | exact M]].
Qed.

Lemma C109_height_l : forall (los : bool) fc e h h' cl sf_los sf_nlos gas scint sf, 0 < fc -> 10 <= e <= 90 -> 5e5 <= h <= h' ->
  let l x := pl_total_fp 24 (pl_basic_fp 24 los fc (slant_range_fp 24 e (rnd 24 x)) cl sf_los sf_nlos) gas scint in
  l h <= l h' /\ gain_fp 24 (l h') sf <= gain_fp 24 (l h) sf.
Proof.
  intros los fc e h h' cl sl sn g s sf F He H l.
  assert (D : 0 < slant_range_fp 24 e (rnd 24 h)).
  { destruct (distance_exists e h ltac:(lra)) as [d D]. pose proof (C94_accuracy_l e h d He ltac:(lra) D) as N.
    destruct D as [D0 _]. apply abs_le_inv in N. lra. }
  assert (M : l h <= l h').
  { unfold l. apply total_fp_mono; [lia | lra |]. split; [exact D|]. apply slant_mono; [lia|].
    split; [apply rnd_nonneg; [lra | lia] | apply rnd_mono; [lia | lra]]. }
  split; [exact M | apply gain_fp_mono; [lia | exact M]].
Qed.
