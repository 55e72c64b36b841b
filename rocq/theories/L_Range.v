(* Lemmas about the satellite distance in finite precision: C94. *)
From Coq Require Import Reals ZArith Lia Lra Psatz.
From Verif Require Import M_Base L_Base M_Params M_Cplx M_Geometry M_Float S_Float L_Float M_Pathloss S_Pathloss S_Range.
Open Scope R_scope.

Lemma sin_small y : 0 <= y <= 1 -> 0.8 * y <= sin y.
Proof.
  intros [X0 X1]. pose proof PI2_3_2 as P2.
  destruct (SIN y X0 ltac:(lra)) as [L _]. eapply Rle_trans; [|exact L].
  unfold sin_lb, sin_approx, sum_f_R0, sin_term. cbn [Nat.mul Nat.add].
  replace (INR (fact 1)) with 1 by reflexivity.
  replace (INR (fact 3)) with 6 by (cbn; lra). replace (INR (fact 5)) with 120 by (cbn; lra).
  replace (INR (fact 7)) with 5040 by (rewrite INR_IZR_INZ; reflexivity).
  cbn [pow]. set (t := y * y).
  assert (T : 0 <= t <= 1) by (unfold t; split; [apply Rmult_le_pos; lra|rewrite <- (Rmult_1_l 1); apply Rmult_le_compat; lra]).
  assert (T3 : t * t * t <= t).
  { assert (t * t <= 1) by (rewrite <- (Rmult_1_l 1); apply Rmult_le_compat; lra).
    rewrite <- (Rmult_1_l t) at 4. apply Rmult_le_compat_r; lra. }
  assert (T2 : 0 <= t * t) by (apply Rmult_le_pos; lra).
  assert (Q : 0 <= y * (1 / 5 - t / 6 + t * t / 120 - t * t * t / 5040)) by (apply Rmult_le_pos; [exact X0|lra]).
  unfold t in Q. lra.
Qed.

Lemma sin_half x : 0 <= x <= PI / 2 -> x / 2 <= sin x.
Proof.
  intros [X0 X1]. pose proof PI_4 as P4. pose proof PI_RGT_0 as P0.
  replace x with (2 * (x / 2)) at 2 by field. rewrite sin_2a.
  pose proof (sin_small (x / 2) ltac:(lra)) as S.
  assert (C : 0.7 <= cos (x / 2)).
  { apply Rle_trans with (cos (PI / 4)).
    - rewrite cos_PI4. apply (Rmult_le_reg_r (sqrt 2)); [apply sqrt_lt_R0; lra|].
      replace (1 / sqrt 2 * sqrt 2) with 1 by (field; apply Rgt_not_eq, sqrt_lt_R0; lra).
      pose proof (sqrt_sqrt 2 ltac:(lra)) as Q. pose proof (sqrt_pos 2).
      destruct (Rle_lt_dec (sqrt 2) (10 / 7)) as [L|L]; [lra|].
      pose proof (Rmult_le_0_lt_compat (10 / 7) (sqrt 2) (10 / 7) (sqrt 2) ltac:(lra) ltac:(lra) L L). lra.
    - apply cos_decr_1; lra. }
  assert (0.8 * (x / 2) * 0.7 <= sin (x / 2) * cos (x / 2)) by (apply Rmult_le_compat; lra). lra.
Qed.

Lemma sqrt2_le : sqrt 2 <= 10 / 7.
Proof.
  pose proof (sqrt_sqrt 2 ltac:(lra)) as Q. pose proof (sqrt_pos 2).
  destruct (Rle_lt_dec (sqrt 2) (10 / 7)) as [L|L]; [exact L|].
  pose proof (Rmult_le_0_lt_compat (10 / 7) (sqrt 2) (10 / 7) (sqrt 2) ltac:(lra) ltac:(lra) L L). lra.
Qed.

Lemma nearest_IZR z : nearest_int (IZR z) = z.
Proof. apply nearest_unique. rewrite Rminus_diag_eq, Rabs_R0 by reflexivity. lra. Qed.

(* rounding keeps a number that fits *)
Lemma rnd_exact p z k : 0 < IZR z * powerRZ 2 k -> (mag (IZR z * powerRZ 2 k) - (p - 1) <= k)%Z ->
  rnd p (IZR z * powerRZ 2 k) = IZR z * powerRZ 2 k.
Proof.
  intros P L. rewrite rnd_pos_eq by exact P. pose proof (ulp_pos p (IZR z * powerRZ 2 k)) as UP.
  assert (E : IZR z * powerRZ 2 k / ulp p (IZR z * powerRZ 2 k) = IZR (z * 2 ^ (k - (mag (IZR z * powerRZ 2 k) - (p - 1))))).
  { rewrite mult_IZR, <- two_z_nonneg by lia. unfold ulp. set (m := (mag (IZR z * powerRZ 2 k) - (p - 1))%Z).
    replace k with ((k - m) + m)%Z at 1 by lia. rewrite two_z_add. field. apply Rgt_not_eq, two_z_pos. }
  rewrite E, nearest_IZR, <- E. field. lra.
Qed.

Lemma rnd_keeps_pos p z k : 0 < IZR z * powerRZ 2 k -> exists z', rnd p (IZR z * powerRZ 2 k) = IZR z' * powerRZ 2 k.
Proof.
  intros P. destruct (Z_le_gt_dec (mag (IZR z * powerRZ 2 k) - (p - 1)) k) as [L|L].
  - exists z. apply rnd_exact; assumption.
  - rewrite rnd_pos_eq by exact P. set (x := IZR z * powerRZ 2 k) in *.
    exists (nearest_int (x / ulp p x) * 2 ^ (mag x - (p - 1) - k))%Z.
    rewrite mult_IZR, <- two_z_nonneg by lia. rewrite Rmult_assoc, <- two_z_add. unfold ulp at 2. do 2 f_equal. lia.
Qed.

Lemma rnd_opp p x : rnd p (- x) = - rnd p x.
Proof.
  unfold rnd, Rltb. destruct (Rlt_dec 0 x), (Rlt_dec 0 (- x)), (Rlt_dec x 0), (Rlt_dec (- x) 0); rewrite ?Ropp_involutive; try lra.
Qed.

Lemma rnd_keeps_multiple p x z k : x = IZR z * powerRZ 2 k -> exists z', rnd p x = IZR z' * powerRZ 2 k.
Proof.
  intros ->. destruct (Rtotal_order 0 (IZR z * powerRZ 2 k)) as [H|[H|H]].
  - apply rnd_keeps_pos, H.
  - rewrite <- H. exists 0%Z. unfold rnd, Rltb. destruct (Rlt_dec 0 0); lra.
  - replace (IZR z * powerRZ 2 k) with (- (IZR (- z) * powerRZ 2 k)) by (rewrite opp_IZR; ring). rewrite rnd_opp.
    destruct (rnd_keeps_pos p (- z) k) as [z' E]; [rewrite opp_IZR; lra|]. exists (- z')%Z. rewrite E, opp_IZR. ring.
Qed.

(* ---- the steps of the computation ---- *)
Section Range.
  Context (e h : R) (He : 10 <= e <= 90) (Hh : 5e5 <= h).
  Let u := powerRZ 2 (- (24)).
  Let a := e * (PI / 180).
  Let RE := 6371000.

  Local Lemma U : 0 < u <= 1 / 16777216.
  Proof. apply unit_24. lia. Qed.

  Local Lemma nround x y k k' : 0 < x -> 0 <= k <= 1000 -> k + 1.01 <= k' -> near (k * u) x y -> near (k' * u) x (rnd 24 y).
  Proof.
    intros X K L N. pose proof U. apply (near_round 24 ltac:(lia) (k * u)); [exact X| | |exact N].
    - split; [apply Rmult_le_pos; lra|]. apply Rle_trans with (1000 * (1 / 16777216)); [apply Rmult_le_compat; lra|lra].
    - fold u. assert (k * u * u <= 0.01 * u) by (apply Rmult_le_compat_r; [lra|]; apply Rle_trans with (1000 * (1 / 16777216)); [apply Rmult_le_compat; lra|lra]).
      assert ((k + 1.01) * u <= k' * u) by (apply Rmult_le_compat_r; lra). lra.
  Qed.
  Local Lemma nrnd x k : 0 < x -> 1 <= k -> near (k * u) x (rnd 24 x).
  Proof.
    intros X K. pose proof U. apply (near_weaken u); [exact X| |apply near_rnd, X].
    rewrite <- (Rmult_1_l u) at 1. apply Rmult_le_compat_r; lra.
  Qed.
  Local Lemma nmult x y x' y' k l m : 0 < x -> 0 < y -> 0 <= k <= 1000 -> 0 <= l <= 1000 -> k + l + 0.01 * l <= m ->
    near (k * u) x x' -> near (l * u) y y' -> near (m * u) (x * y) (x' * y').
  Proof.
    intros X Y K L M N1 N2. pose proof U.
    assert (B : forall q, 0 <= q <= 1000 -> 0 <= q * u <= 0.01).
    { intros q Q. split; [apply Rmult_le_pos; lra|]. apply Rle_trans with (1000 * (1 / 16777216)); [apply Rmult_le_compat; lra|lra]. }
    pose proof (B k K). pose proof (B l L).
    apply (near_weaken (k * u + l * u + k * u * (l * u))).
    - apply Rmult_lt_0_compat; assumption.
    - assert (k * u * (l * u) <= 0.01 * (l * u)) by (apply Rmult_le_compat_r; lra).
      assert ((k + l + 0.01 * l) * u <= m * u) by (apply Rmult_le_compat_r; lra). lra.
    - apply near_mult; try assumption; lra.
  Qed.

  Local Lemma A_range : 0 < a <= PI / 2.
  Proof. unfold a. pose proof PI_RGT_0. split; [apply Rmult_lt_0_compat; lra|]. apply Rle_trans with (90 * (PI / 180)); [apply Rmult_le_compat_r; lra|lra]. Qed.

  Local Lemma near_rad : near (1.2 * u) a (rnd 24 (radians_fp e)).
  Proof.
    pose proof U. pose proof A_range as [A0 _]. pose proof PI_RGT_0.
    apply (nround _ _ 0.1); [exact A0|lra|lra|]. unfold radians_fp, a.
    assert (V : powerRZ 2 (- (53)) <= u / 1000).
    { apply Rle_trans with (powerRZ 2 (- (34))); [apply two_z_le; lia|]. replace (- (34))%Z with (- (24) + - (10))%Z by lia.
      rewrite two_z_add. fold u. replace (powerRZ 2 (- (10))) with (1 / 1024) by (simpl; lra). lra. }
    pose proof (two_z_pos (- (53))) as V0. set (v := powerRZ 2 (- (53))) in *.
    pose proof (near_rnd 53 (PI / 180) ltac:(lra)) as N1. fold v in N1.
    assert (N2 : near (0 + v + 0 * v) (e * (PI / 180)) (e * rnd 53 (PI / 180))).
    { apply near_mult; try lra; [|exact N1]. unfold near. rewrite Rminus_diag_eq, Rabs_R0 by reflexivity. lra. }
    set (x := e * (PI / 180)) in *. fold a in A0. change (0 < x) in A0.
    set (y := e * rnd 53 (PI / 180)) in *.
    assert (Y : 0 < y) by (apply (near_pos (0 + v + 0 * v) x y A0); [lra|exact N2]).
    apply (near_weaken ((0 + v + 0 * v) + v + (0 + v + 0 * v) * v)); [exact A0| |].
    - assert (v * v <= v * 1) by (apply Rmult_le_compat_l; lra). lra.
    - apply (near_trans _ _ x y); try lra; [exact N2|]. apply near_rnd, Y.
  Qed.

  Local Lemma S_pos : 0 < sin a.
  Proof. pose proof A_range. pose proof (sin_half a ltac:(lra)). lra. Qed.

  Local Lemma near_sin : near (3.5 * u) (sin a) (sin_elev_fp 24 e).
  Proof.
    pose proof U. pose proof A_range as A. unfold sin_elev_fp. apply (nround _ _ 2.4); [exact S_pos|lra|lra|].
    pose proof near_rad as N. unfold near in *. destruct (cos_sin_lip (rnd 24 (radians_fp e)) a) as [_ L].
    pose proof (sin_half a ltac:(lra)) as Q. eapply Rle_trans; [exact L|]. eapply Rle_trans; [exact N|].
    replace (2.4 * u * sin a) with (1.2 * u * (2 * sin a)) by lra. apply Rmult_le_compat_l; lra.
  Qed.
  Local Lemma sin_fp_pos : 0 < sin_elev_fp 24 e.
  Proof. pose proof U. apply (near_pos (3.5 * u) (sin a)); [exact S_pos|lra|exact near_sin]. Qed.

  Let A := RE ^ 2 * sin a ^ 2.
  Let B := h ^ 2.
  Let C := 2 * h * RE.
  Let Q := sqrt (A + B + C).
  Let T := RE * sin a.

  Local Lemma pos_A : 0 < A. Proof. unfold A. pose proof S_pos. apply Rmult_lt_0_compat; apply pow_lt; unfold RE; lra. Qed.
  Local Lemma pos_B : 0 < B. Proof. unfold B. apply pow_lt. lra. Qed.
  Local Lemma pos_C : 0 < C. Proof. unfold C, RE. lra. Qed.

  Let h' := rnd 24 h.
  Local Lemma near_h : near (1 * u) h h'. Proof. apply nrnd; lra. Qed.
  Local Lemma pos_h' : 0 < h'. Proof. pose proof U. apply (near_pos (1 * u) h); [lra|lra|exact near_h]. Qed.

  Local Lemma near_A : near (10.3 * u) A (rnd 24 (rnd 24 (earth_radius ^ 2) * rnd 24 (sin_elev_fp 24 e ^ 2))).
  Proof.
    pose proof U. apply (nround _ _ 9.2); [exact pos_A|lra|lra|]. unfold A.
    apply (nmult _ _ _ _ 1 8.1); try lra; try (apply pow_lt; unfold RE; lra || apply S_pos).
    - apply nrnd; [unfold earth_radius; lra|lra].
    - apply (nround _ _ 7.05); [apply pow_lt, S_pos|lra|lra|]. cbn [pow]. rewrite !Rmult_1_r.
      apply (nmult _ _ _ _ 3.5 3.5); try lra; exact S_pos || exact near_sin.
  Qed.
  Local Lemma near_B : near (3.1 * u) B (rnd 24 (h' ^ 2)).
  Proof.
    pose proof U. apply (nround _ _ 2.05); [exact pos_B|lra|lra|]. unfold B. cbn [pow]. rewrite !Rmult_1_r.
    apply (nmult _ _ _ _ 1 1); try lra; exact near_h.
  Qed.
  Local Lemma near_C : near (3.2 * u) C (rnd 24 (rnd 24 (2 * h') * earth_radius)).
  Proof.
    pose proof U. apply (nround _ _ 2.1); [exact pos_C|lra|lra|]. unfold C.
    apply (nmult _ _ _ _ 2.1 0); try lra; [unfold RE; lra| |unfold near, earth_radius, RE; rewrite Rminus_diag_eq, Rabs_R0 by reflexivity; lra].
    apply (nround _ _ 1); [lra|lra|lra|]. pose proof near_h as N. unfold near in *.
    replace (2 * h' - 2 * h) with (2 * (h' - h)) by ring. rewrite Rabs_mult, (Rabs_right 2) by lra. lra.
  Qed.
  Local Lemma near_plus x y x' y' k : 0 < x -> 0 < y -> near (k * u) x x' -> near (k * u) y y' -> near (k * u) (x + y) (x' + y').
  Proof.
    unfold near. intros X Y N1 N2. replace (x' + y' - (x + y)) with ((x' - x) + (y' - y)) by ring.
    eapply Rle_trans; [apply Rabs_triang|]. lra.
  Qed.
  Local Lemma nweak x y k l : 0 < x -> k <= l -> near (k * u) x y -> near (l * u) x y.
  Proof. intros X K. apply near_weaken; [exact X|]. pose proof U. apply Rmult_le_compat_r; lra. Qed.

  Local Lemma near_sqrt x y k : 0 < x -> 0 <= k <= 1000 -> near (k * u) x y -> near (k / 2 * u * 1.01) (sqrt x) (sqrt y).
  Proof.
    intros X K N. pose proof U. 
    assert (KB : 0 <= k * u <= 0.001).
    { split; [apply Rmult_le_pos; lra|]. apply Rle_trans with (1000 * (1 / 16777216)); [apply Rmult_le_compat; lra|lra]. }
    set (q := k * u) in *. apply near_bounds in N. destruct N as [N1 N2]. apply bounds_near.
    replace (k / 2 * u * 1.01) with (0.505 * q) by (unfold q; lra).
    assert (SX : 0 <= sqrt x) by apply sqrt_pos. pose proof (sqrt_sqrt x ltac:(lra)) as SS.
    assert (Y0 : 0 <= y) by (apply Rle_trans with (x * (1 - q)); [apply Rmult_le_pos; lra|exact N1]).
    assert (QQ : 0 <= q * q <= 0.001 * q) by (split; [apply Rmult_le_pos; lra|apply Rmult_le_compat_r; lra]).
    split.
    - rewrite <- (sqrt_square (sqrt x * (1 - 0.505 * q))) by (apply Rmult_le_pos; lra). apply sqrt_le_1_alt.
      replace (sqrt x * (1 - 0.505 * q) * (sqrt x * (1 - 0.505 * q))) with (x * ((1 - 0.505 * q) * (1 - 0.505 * q))) by (rewrite <- SS at 1; ring).
      eapply Rle_trans; [|exact N1]. apply Rmult_le_compat_l; lra.
    - rewrite <- (sqrt_square (sqrt x * (1 + 0.505 * q))) by (apply Rmult_le_pos; lra). apply sqrt_le_1_alt.
      replace (sqrt x * (1 + 0.505 * q) * (sqrt x * (1 + 0.505 * q))) with (x * ((1 + 0.505 * q) * (1 + 0.505 * q))) by (rewrite <- SS at 1; ring).
      eapply Rle_trans; [exact N2|]. apply Rmult_le_compat_l; lra.
  Qed.

  Let Q' := rnd 24 (sqrt (rnd 24 (rnd 24 (rnd 24 (rnd 24 (earth_radius ^ 2) * rnd 24 (sin_elev_fp 24 e ^ 2)) + rnd 24 (h' ^ 2))
                                   + rnd 24 (rnd 24 (2 * h') * earth_radius)))).
  Let T' := rnd 24 (earth_radius * sin_elev_fp 24 e).

  Local Lemma near_Q0 : near (12.5 / 2 * u * 1.01) Q
    (sqrt (rnd 24 (rnd 24 (rnd 24 (rnd 24 (earth_radius ^ 2) * rnd 24 (sin_elev_fp 24 e ^ 2)) + rnd 24 (h' ^ 2))
                                   + rnd 24 (rnd 24 (2 * h') * earth_radius)))).
  Proof.
    pose proof pos_A. pose proof pos_B. pose proof pos_C. pose proof U. unfold Q.
    apply near_sqrt; [lra|lra|]. apply (nround _ _ 11.4); [lra|lra|lra|]. apply near_plus; [lra|lra| |apply (nweak _ _ 3.2); [lra|lra|exact near_C]].
    apply (nround _ _ 10.3); [lra|lra|lra|]. apply near_plus; [lra|lra|exact near_A|]. apply (nweak _ _ 3.1); [lra|lra|exact near_B].
  Qed.
  Local Lemma near_Q : near (7.5 * u) Q Q'.
  Proof.
    pose proof pos_A. pose proof pos_B. pose proof pos_C. pose proof U.
    unfold Q'. apply (nround _ _ (12.5 / 2 * 1.01)); [apply sqrt_lt_R0; lra|lra|lra|].
    replace (12.5 / 2 * 1.01 * u) with (12.5 / 2 * u * 1.01) by lra. exact near_Q0.
  Qed.
  Local Lemma near_T : near (4.6 * u) T T'.
  Proof.
    pose proof U. unfold T', T. apply (nround _ _ 3.55); [apply Rmult_lt_0_compat; [unfold RE; lra|exact S_pos]|lra|lra|].
    apply (nmult _ _ _ _ 0 3.5); try lra; [unfold RE; lra|exact S_pos| |exact near_sin].
    unfold near, earth_radius, RE. rewrite Rminus_diag_eq, Rabs_R0 by reflexivity. lra.
  Qed.

  Lemma range_error d : satellite_distance e h d -> Rabs (slant_range_fp 24 e (rnd 24 h) - d) <= 1e-5 * d.
  Proof.
    intros [D0 DE]. fold a in DE. pose proof S_pos as S. pose proof (SIN_bound a) as [_ S1]. pose proof U as UU.
    assert (QE : Q = T + d).
    { unfold Q. rewrite <- (sqrt_square (T + d)) by (unfold T, RE; pose proof (Rmult_lt_0_compat 6371000 _ ltac:(lra) S); lra).
      f_equal. unfold A, B, C, T, RE. cbn [pow] in *. lra. }
    assert (DH : h <= d).
    { destruct (Rle_lt_dec h d) as [L|L]; [exact L|exfalso].
      assert (d * d < h * h) by (apply Rmult_le_0_lt_compat; lra).
      assert (d * sin a <= d * 1) by (apply Rmult_le_compat_l; lra). cbn [pow] in DE. lra. }
    assert (T6 : 0 < T <= 6371000).
    { unfold T, RE. split; [apply Rmult_lt_0_compat; lra|]. lra. }
    pose proof near_Q as NQ. pose proof near_T as NT. unfold near in NQ, NT. rewrite QE in NQ.
    change (slant_range_fp 24 e (rnd 24 h)) with (rnd 24 (Q' - T')).
    assert (E1 : Rabs (Q' - T' - d) <= 7.5 * u * (T + d) + 4.6 * u * T).
    { replace (Q' - T' - d) with ((Q' - (T + d)) - (T' - T)) by ring. unfold Rminus at 1.
      eapply Rle_trans; [apply Rabs_triang|]. rewrite Rabs_Ropp. lra. }
    assert (TD : T <= 12.742 * d) by lra.
    assert (E2 : Rabs (Q' - T' - d) <= 162 * u * d).
    { eapply Rle_trans; [exact E1|]. assert (u * T <= u * (12.742 * d)) by (apply Rmult_le_compat_l; lra).
      assert (0 < u * d) by (apply Rmult_lt_0_compat; lra). lra. }
    assert (N : near (163.1 * u) d (rnd 24 (Q' - T'))) by (apply (nround _ _ 162); [exact D0|lra|lra|exact E2]).
    unfold near in N. eapply Rle_trans; [exact N|]. apply Rmult_le_compat_r; [lra|]. lra.
  Qed.

  (* the reported distance is on a grid *)
  Lemma range_grid : 45 <= e -> exists z : Z, slant_range_fp 24 e (rnd 24 h) = IZR z / 2.
  Proof.
    intros H45. pose proof U as UU. pose proof A_range as AR.
    assert (S7 : 0.7 <= sin a).
    { apply Rle_trans with (sin (PI / 4)).
      - rewrite sin_cos_PI4, cos_PI4. pose proof sqrt2_le as L. pose proof (sqrt_lt_R0 2 ltac:(lra)).
        apply (Rmult_le_reg_r (sqrt 2)); [assumption|].
        replace (1 / sqrt 2 * sqrt 2) with 1 by (field; lra). lra.
      - pose proof PI_RGT_0. apply sin_incr_1; try lra.
        unfold a. apply Rle_trans with (45 * (PI / 180)); [lra|]. apply Rmult_le_compat_r; lra. }
    assert (T0 : 4.45e6 <= T) by (unfold T, RE; lra).
    
    assert (QT : T <= Q).
    { unfold Q. rewrite <- (sqrt_square T) by lra. apply sqrt_le_1_alt. pose proof pos_B. pose proof pos_C. unfold A, T. cbn [pow]. lra. }
    assert (E1 : exists z, T' = IZR z * powerRZ 2 (22 - (24 - 1))).
    { apply rnd_multiple. replace (powerRZ 2 22) with 4194304 by (simpl; lra).
      pose proof near_sin as NS. apply near_bounds in NS. unfold earth_radius.
      assert (0.7 * (1 - 1e-3) <= sin a * (1 - 3.5 * u)) by (apply Rmult_le_compat; lra). lra. }
    assert (E2 : exists z, Q' = IZR z * powerRZ 2 (22 - (24 - 1))).
    { apply rnd_multiple. replace (powerRZ 2 22) with 4194304 by (simpl; lra).
      pose proof near_Q0 as N0. apply near_bounds in N0.
      assert (4.45e6 * (1 - 1e-3) <= Q * (1 - 12.5 / 2 * u * 1.01)) by (apply Rmult_le_compat; lra). lra. }
    destruct E1 as [z1 E1], E2 as [z2 E2].
    change (slant_range_fp 24 e (rnd 24 h)) with (rnd 24 (Q' - T')).
    assert (EX : Q' - T' = IZR (z2 - z1) * powerRZ 2 (22 - (24 - 1))) by (rewrite E1, E2, minus_IZR; ring).
    destruct (rnd_keeps_multiple 24 (Q' - T') (z2 - z1) (22 - (24 - 1)) EX) as [z Z].
    exists z. rewrite Z. simpl. lra.
  Qed.
End Range.

(* a height of n + 1/4 metres fits in single precision *)
Lemma quarter_fits n : (600000 <= n <= 1000000)%Z -> rnd 24 (IZR n + 1 / 4) = IZR n + 1 / 4.
Proof.
  intros [N1 N2]. apply IZR_le in N1, N2.
  assert (E : IZR n + 1 / 4 = IZR (4 * n + 1) * powerRZ 2 (-2)) by (rewrite plus_IZR, mult_IZR; simpl; lra).
  rewrite E. apply rnd_exact; rewrite <- E; [lra|].
  rewrite (mag_unique _ 19); [lia|]. replace (powerRZ 2 19) with 524288 by (simpl; lra).
  replace (powerRZ 2 (19 + 1)) with 1048576 by (simpl; lra). lra.
Qed.

Lemma zenith_distance h : 0 < h -> satellite_distance 90 h h.
Proof.
  intros H. split; [exact H|]. replace (90 * (PI / 180)) with (PI / 2) by field. rewrite sin_PI2. ring.
Qed.

Lemma C94_accuracy_l : forall e h d, 10 <= e <= 90 -> 5e5 <= h -> satellite_distance e h d ->
  Rabs (slant_range_fp 24 e (rnd 24 h) - d) <= 1e-5 * d.
Proof. intros e h d He Hh D. apply range_error; assumption. Qed.

Lemma ln_close x y : 0 < x -> Rabs (y - x) <= 1e-5 * x -> Rabs (ln y - ln x) <= 1.1e-5.
Proof.
  intros X N. assert (B : x * (1 - 1e-5) <= y <= x * (1 + 1e-5)) by (apply Rabs_le_between in N || (unfold Rabs in N; destruct (Rcase_abs (y - x))); lra).
  assert (Y : 0 < y) by lra.
  assert (UP : forall a b, 0 < a -> 0 < b -> ln b - ln a <= (b - a) / a).
  { intros a b Ha Hb. replace b with (a * (b / a)) at 1 by (field; lra).
    assert (0 < b / a) by (apply Rdiv_lt_0_compat; lra). rewrite ln_mult by assumption.
    replace ((b - a) / a) with (b / a - 1) by (field; lra).
    pose proof (exp_ineq1_le (ln (b / a))) as I. rewrite exp_ln in I by assumption. lra. }
  pose proof (UP x y X Y) as U1. pose proof (UP y x Y X) as U2.
  assert (L1 : (y - x) / x <= 1.1e-5) by (apply (Rmult_le_reg_r x); [exact X|]; unfold Rdiv; rewrite Rmult_assoc, Rinv_l by lra; lra).
  assert (L2 : (x - y) / y <= 1.1e-5) by (apply (Rmult_le_reg_r y); [exact Y|]; unfold Rdiv; rewrite Rmult_assoc, Rinv_l by lra; lra).
  apply Rabs_le. lra.
Qed.

Lemma C94_pathloss_l : forall fc e h d, 10 <= e <= 90 -> 5e5 <= h -> satellite_distance e h d ->
  Rabs (free_space fc (slant_range_fp 24 e (rnd 24 h)) - free_space fc d) <= 1.1e-4.
Proof.
  intros fc e h d He Hh D. pose proof (C94_accuracy_l e h d He Hh D) as N. destruct D as [D0 _].
  pose proof (ln_close d _ D0 N) as L. unfold free_space. set (r := slant_range_fp 24 e (rnd 24 h)) in *.
  assert (L10 : 2 <= ln 10).
  { pose proof exp_le_3 as E. apply Rnot_lt_le. intros C. apply exp_increasing in C. rewrite exp_ln in C by lra. revert C. apply Rle_not_lt. replace 2 with (1 + 1) by ring. rewrite exp_plus.
    pose proof (exp_pos 1). assert (exp 1 * exp 1 <= 3 * 3) by (apply Rmult_le_compat; lra). lra. }
  replace (32.45 + 20 * (ln (fc / 10 ^ 9) / ln 10) + 20 * (ln r / ln 10) - (32.45 + 20 * (ln (fc / 10 ^ 9) / ln 10) + 20 * (ln d / ln 10)))
    with (20 / ln 10 * (ln r - ln d)) by (field; lra).
  rewrite Rabs_mult. rewrite (Rabs_right (20 / ln 10)) by (apply Rle_ge, Rlt_le, Rdiv_lt_0_compat; lra).
  apply Rle_trans with (10 * 1.1e-5); [|lra]. apply Rmult_le_compat; [apply Rlt_le, Rdiv_lt_0_compat; lra|apply Rabs_pos| |exact L].
  apply (Rmult_le_reg_r (ln 10)); [lra|]. unfold Rdiv. rewrite Rmult_assoc, Rinv_l by lra. lra.
Qed.

Lemma C94_grid_l : forall e h, 45 <= e <= 90 -> 5e5 <= h -> exists z : Z, slant_range_fp 24 e (rnd 24 h) = IZR z / 2.
Proof. intros e h He Hh. apply range_grid; lra. Qed.

Lemma C94_refuted_l : forall n fc, (600000 <= n <= 1000000)%Z -> supported_carrier fc ->
  let h := IZR n + 1 / 4 in
  rnd 24 h = h /\ satellite_distance 90 h h /\ 1.5 * (299792458 / fc) < Rabs (slant_range_fp 24 90 h - h).
Proof.
  intros n fc N F h. pose proof (quarter_fits n N) as Q. fold h in Q. destruct N as [N1 N2]. apply IZR_le in N1, N2.
  split; [exact Q|]. split; [apply zenith_distance; unfold h; lra|].
  destruct (C94_grid_l 90 h ltac:(lra) ltac:(unfold h; lra)) as [z E]. rewrite Q in E. rewrite E.
  apply Rlt_le_trans with (1 / 4).
  - pose proof (supported_pos fc F) as SP. apply (Rmult_lt_reg_r fc); [lra|].
    replace (1.5 * (299792458 / fc) * fc) with (1.5 * 299792458) by (field_simplify; lra). lra.
  - unfold h. replace (IZR z / 2 - (IZR n + 1 / 4)) with (IZR (2 * z - 4 * n - 1) / 4) by (rewrite !minus_IZR, !mult_IZR; field).
    assert (OD : (2 * z - 4 * n - 1 <= -1 \/ 1 <= 2 * z - 4 * n - 1)%Z) by lia.
    destruct OD as [O|O]; apply IZR_le in O; unfold Rabs; destruct (Rcase_abs _); lra.
Qed.

Lemma distance_exists e h : 0 < h -> exists d, satellite_distance e h d.
Proof.
  intros H. set (s := sin (e * (PI / 180))). set (t := 6371000 * s).
  assert (P : 0 < h * h + 2 * h * 6371000) by (pose proof (Rmult_lt_0_compat h h H H); lra).
  assert (T0 : 0 <= t * t) by (rewrite <- (Rmult_1_r (t * t)), Rmult_1_r; apply Rle_0_sqr).
  exists (sqrt (t * t + (h * h + 2 * h * 6371000)) - t).
  set (q := sqrt (t * t + (h * h + 2 * h * 6371000))).
  assert (Q : q * q = t * t + (h * h + 2 * h * 6371000)) by (apply sqrt_sqrt; lra).
  split.
  - assert (t < q); [|lra]. destruct (Rle_lt_dec t 0) as [L|L].
    + apply Rle_lt_trans with 0; [exact L|]. apply sqrt_lt_R0. lra.
    + unfold q. rewrite <- (sqrt_square t) at 1 by lra. apply sqrt_lt_1_alt. lra.
  - fold s. replace (6371000 ^ 2 + (q - t) ^ 2 + 2 * 6371000 * (q - t) * s) with (6371000 ^ 2 + q * q - t * t) by (unfold t; ring).
    rewrite Q. ring.
Qed.

Lemma C94_example_l : (exists d, satellite_distance 30 600000 d) /\ supported_carrier 2e9 /\
  rnd 24 600000.25 = 600000.25.
Proof.
  split; [apply distance_exists; lra|]. split; [left; lra|].
  replace 600000.25 with (IZR 600000 + 1 / 4) by lra. apply quarter_fits. lia.
Qed.
