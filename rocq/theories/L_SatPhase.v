(* Lemmas about the Doppler rotation of the satellite in finite precision: C95. *)
From Coq Require Import Reals ZArith Lia Lra Psatz.
From Verif Require Import M_Base L_Base M_Params M_Cplx M_Geometry M_Pathloss M_Coeff M_Float S_Float L_Float L_Range L_Pathloss.
Open Scope R_scope.

Lemma rnd_0 p : rnd p 0 = 0.
Proof. unfold rnd, Rltb. destruct (Rlt_dec 0 0); lra. Qed.

Section Rotation.
  Context (p : Z) (fc fs : R) (Hp : (24 <= p <= 53)%Z) (Hf : 0 < fc) (Hs : 0 < fs).
  Let u := powerRZ 2 (- p).
  Local Lemma U : 0 < u <= 1 / 16777216.
  Proof. apply unit_24. lia. Qed.

  Local Lemma nround x y k k' : 0 < x -> 0 <= k <= 1000 -> k + 1.01 <= k' -> near (k * u) x y -> near (k' * u) x (rnd p y).
  Proof.
    intros X K L N. pose proof U. apply (near_round p ltac:(lia) (k * u)); [exact X| | |exact N].
    - split; [apply Rmult_le_pos; lra|]. apply Rle_trans with (1000 * (1 / 16777216)); [apply Rmult_le_compat; lra|lra].
    - fold u. assert (k * u * u <= 0.01 * u) by (apply Rmult_le_compat_r; [lra|]; apply Rle_trans with (1000 * (1 / 16777216)); [apply Rmult_le_compat; lra|lra]).
      assert ((k + 1.01) * u <= k' * u) by (apply Rmult_le_compat_r; lra). lra.
  Qed.
  Local Lemma nrnd x k : 0 < x -> 1 <= k -> near (k * u) x (rnd p x).
  Proof.
    intros X K. pose proof U. apply (near_weaken u); [exact X| |apply near_rnd, X].
    rewrite <- (Rmult_1_l u) at 1. apply Rmult_le_compat_r; lra.
  Qed.
  Local Lemma nmult x y x' y' k l m : 0 < x -> 0 < y -> 0 <= k <= 1000 -> 0 <= l <= 1000 -> k + l + 0.01 * l <= m ->
    near (k * u) x x' -> near (l * u) y y' -> near (m * u) (x * y) (x' * y').
  Proof.
    intros X Y K L M N1 N2. pose proof U.
    assert (B : forall q, 0 <= q <= 1000 -> 0 <= q * u <= 0.01).
    { intros q Q. split; [apply Rmult_le_pos; lra|]. apply Rle_trans with (1000 * (1 / 16777216)); [apply Rmult_le_compat; lra|lra]. }
    pose proof (B k K). pose proof (B l L).
    apply (near_weaken (k * u + l * u + k * u * (l * u))).
    - apply Rmult_lt_0_compat; assumption.
    - assert (k * u * (l * u) <= 0.01 * (l * u)) by (apply Rmult_le_compat_r; lra).
      assert ((k + l + 0.01 * l) * u <= m * u) by (apply Rmult_le_compat_r; lra). lra.
    - apply near_mult; try assumption; lra.
  Qed.
  Local Lemma ninv y y' k m : 0 < y -> 0 <= k <= 1000 -> 2 * k <= m -> near (k * u) y y' -> near (m * u) (/ y) (/ y').
  Proof.
    intros Y K M N. pose proof U. apply (near_weaken (2 * (k * u))); [apply Rinv_0_lt_compat, Y| |].
    - assert (2 * k * u <= m * u) by (apply Rmult_le_compat_r; lra). lra.
    - apply near_inv; [exact Y| |exact N]. split; [apply Rmult_le_pos; lra|].
      apply Rle_trans with (1000 * (1 / 16777216)); [apply Rmult_le_compat; lra|lra].
  Qed.

  Local Lemma near_time k : (0 < k)%nat -> near (4.2 * u) (INR k / fs) (sample_time_fp p fs k).
  Proof.
    intros K. apply lt_INR in K. cbn [INR] in K. unfold sample_time_fp, Rdiv. pose proof (Rinv_0_lt_compat fs Hs).
    apply (nround _ _ 3.1); [apply Rmult_lt_0_compat; lra|lra|lra|].
    apply (nmult _ _ _ _ 1 2); try lra; [apply nrnd; lra|]. apply (ninv _ _ 1); try lra. apply nrnd; lra.
  Qed.

  Let w := 2 * PI / (speed_of_light / fc).
  Local Lemma W : 0 < w.
  Proof.
    unfold w. pose proof PI_RGT_0. apply Rdiv_lt_0_compat; [lra|]. apply Rdiv_lt_0_compat; [rewrite speed_of_light_val; lra|exact Hf].
  Qed.
  Local Lemma near_wave : near (11.8 * u) w (rnd p (two_pi_fp p / wavelength_fp p fc)).
  Proof.
    pose proof U. pose proof PI_RGT_0. assert (C : 0 < speed_of_light) by (rewrite speed_of_light_val; lra).
    assert (X : 0 < speed_of_light / fc) by (apply Rdiv_lt_0_compat; assumption).
    apply (nround _ _ 10.7); [exact W|lra|lra|]. unfold w, Rdiv at 1 3.
    apply (nmult _ _ _ _ 2.1 8.4); try lra; [apply Rinv_0_lt_compat, X| |].
    - apply near_two_pi; lia.
    - apply (ninv _ _ 4.2); try lra; try assumption. apply near_wavelength; [lia|exact Hf].
  Qed.

  Lemma rotation_pos v k : 0 < v -> (0 < k)%nat ->
    near (18.1 * u) (exact_phase fc (v * (INR k / fs))) (rnd p (rnd p (two_pi_fp p / wavelength_fp p fc) * rnd p v) * sample_time_fp p fs k).
  Proof.
    intros V K. pose proof U. pose proof W.
    assert (T : 0 < INR k / fs) by (apply Rdiv_lt_0_compat; [apply lt_0_INR, K|exact Hs]).
    replace (exact_phase fc (v * (INR k / fs))) with (w * v * (INR k / fs)).
    2:{ unfold w, exact_phase. rewrite speed_of_light_val. field. split; [lra|]. lra. }
    apply (nmult _ _ _ _ 13.85 4.2); try lra; try (apply Rmult_lt_0_compat; assumption).
    - apply (nround _ _ 12.83); [apply Rmult_lt_0_compat; assumption|lra|lra|].
      apply (nmult _ _ _ _ 11.8 1); try lra; [exact near_wave|apply nrnd; lra].
    - apply near_time, K.
  Qed.
End Rotation.

Lemma sat_rotation_opp p fc v t : sat_rotation_fp p fc (- v) t = - sat_rotation_fp p fc v t.
Proof.
  unfold sat_rotation_fp. rewrite Ropp_mult_distr_r_reverse, rnd_opp, Ropp_mult_distr_l_reverse, rnd_opp. reflexivity.
Qed.

Lemma exact_phase_opp fc d : exact_phase fc (- d) = - exact_phase fc d.
Proof. unfold exact_phase. field. Qed.

Lemma C95_pos p fc fs v k : (24 <= p <= 53)%Z -> 0 < fc -> 0 < fs -> 0 < v ->
  Rabs (sat_rotation_fp p fc (rnd p v) (sample_time_fp p fs k) - exact_phase fc (v * (INR k / fs))) <=
  20 * powerRZ 2 (- p) * exact_phase fc (v * (INR k / fs)).
Proof.
  intros Hp Hf Hs V. pose proof (unit_24 p ltac:(lia)) as UU. destruct (Nat.eq_dec k 0) as [->|K].
  - unfold sat_rotation_fp, sample_time_fp. cbn [INR]. rewrite rnd_0. unfold Rdiv. rewrite !Rmult_0_l, rnd_0, !Rmult_0_r, rnd_0.
    unfold exact_phase. replace (2 * PI * 0 * fc / 299792458) with 0 by field. rewrite Rminus_0_r, Rabs_R0. lra.
  - assert (K' : (0 < k)%nat) by lia. unfold sat_rotation_fp.
    assert (T : 0 < INR k / fs) by (apply Rdiv_lt_0_compat; [apply lt_0_INR, K'|exact Hs]).
    apply (near_round p ltac:(lia) (18.1 * powerRZ 2 (- p))).
    + apply exact_phase_pos; [exact Hf|apply Rmult_lt_0_compat; assumption].
    + lra.
    + assert (18.1 * powerRZ 2 (- p) * powerRZ 2 (- p) <= 0.01 * powerRZ 2 (- p)) by (apply Rmult_le_compat_r; lra). lra.
    + apply rotation_pos; assumption.
Qed.

Lemma C95_accuracy_l : forall p fc fs v k, (24 <= p <= 53)%Z -> supported_carrier fc -> 0 < fs ->
  let exact := exact_phase fc (v * (INR k / fs)) in
  Rabs (sat_rotation_fp p fc (rnd p v) (sample_time_fp p fs k) - exact) <= 20 * powerRZ 2 (- p) * Rabs exact.
Proof.
  intros p fc fs v k Hp F Hs exact. assert (Hf : 0 < fc) by (pose proof (supported_pos fc F); lra). unfold exact.
  assert (T : 0 <= INR k / fs) by (apply Rmult_le_pos; [apply pos_INR|apply Rlt_le, Rinv_0_lt_compat, Hs]).
  assert (NN : forall v', 0 < v' -> 0 <= exact_phase fc (v' * (INR k / fs))).
  { intros v' V. unfold exact_phase, Rdiv at 1. pose proof PI_RGT_0. apply Rmult_le_pos; [|lra].
    apply Rmult_le_pos; [|lra]. apply Rmult_le_pos; [lra|]. apply Rmult_le_pos; lra. }
  destruct (Rtotal_order 0 v) as [V|[V|V]].
  - rewrite (Rabs_right (exact_phase _ _)) by (apply Rle_ge, NN, V). apply C95_pos; assumption.
  - subst v. rewrite rnd_0. unfold sat_rotation_fp. rewrite Rmult_0_r, rnd_0, !Rmult_0_l, rnd_0.
    unfold exact_phase. replace (2 * PI * 0 * fc / 299792458) with 0 by field. rewrite Rminus_0_r, Rabs_R0. lra.
  - replace v with (- (- v)) by ring. set (v' := - v). assert (V' : 0 < v') by (unfold v'; lra).
    rewrite rnd_opp, sat_rotation_opp, Ropp_mult_distr_l_reverse, exact_phase_opp, Rabs_Ropp.
    rewrite (Rabs_right (exact_phase _ _)) by (apply Rle_ge, NN, V').
    replace (- sat_rotation_fp p fc (rnd p v') (sample_time_fp p fs k) - - exact_phase fc (v' * (INR k / fs)))
      with (- (sat_rotation_fp p fc (rnd p v') (sample_time_fp p fs k) - exact_phase fc (v' * (INR k / fs)))) by ring.
    rewrite Rabs_Ropp. apply C95_pos; assumption.
Qed.

Lemma speed_bound h e w : 600000 <= h -> Rabs (topology_sat_speed h e w) <= 7600.
Proof.
  intros H. unfold topology_sat_speed.
  assert (V : 0 < satellite_speed h <= 7600).
  { assert (Q := satellite_speed_sq h ltac:(lra)). assert (P := satellite_speed_pos h ltac:(lra)).
    split; [exact P|]. unfold grav_const, earth_mass, earth_radius in Q.
    destruct (Rle_lt_dec (satellite_speed h) 7600) as [L|L]; [exact L|exfalso].
    assert (7600 ^ 2 <= satellite_speed h ^ 2) by (apply pow_incr; lra).
    assert (7600 ^ 2 * (6371000 + 600000) <= satellite_speed h ^ 2 * (6371000 + h)) by (apply Rmult_le_compat; lra). lra. }
  rewrite !Rabs_mult, (Rabs_right (satellite_speed h)) by lra.
  assert (C : forall x, Rabs (cos x) <= 1) by (intros x; apply Rabs_le; apply COS_bound).
  pose proof (C w). pose proof (C (e * (PI / 180))). pose proof (Rabs_pos (cos w)). pose proof (Rabs_pos (cos (e * (PI / 180)))).
  assert (Rabs (cos (e * (PI / 180))) * satellite_speed h <= 1 * 7600) by (apply Rmult_le_compat; lra).
  assert (0 <= Rabs (cos (e * (PI / 180))) * satellite_speed h) by (apply Rmult_le_pos; lra).
  rewrite <- (Rmult_1_l 7600). apply Rmult_le_compat; lra.
Qed.

Lemma C95_subframe_l : forall fc fs h e w k, supported_carrier fc -> 0 < fs -> 600000 <= h -> INR k / fs <= 1e-3 ->
  let v := topology_sat_speed h e w in
  let exact := exact_phase fc (v * (INR k / fs)) in
  Rabs (sat_rotation_fp 24 fc (rnd 24 v) (sample_time_fp 24 fs k) - exact) <= 0.01 /\
  Rabs (re (sat_factor_fp 24 fc v fs k) - cos exact) <= 0.01 /\
  Rabs (im (sat_factor_fp 24 fc v fs k) - sin exact) <= 0.01.
Proof.
  intros fc fs h e w k F Hs Hh Hk v exact. pose proof (speed_bound h e w Hh) as V. fold v in V.
  pose proof (C95_accuracy_l 24 fc fs v k ltac:(lia) F Hs) as A. cbv zeta in A. fold exact in A.
  pose proof (unit_24 24 ltac:(lia)) as UU. pose proof (supported_pos fc F) as SP.
  assert (T : 0 <= INR k / fs) by (apply Rmult_le_pos; [apply pos_INR|apply Rlt_le, Rinv_0_lt_compat, Hs]).
  assert (E : Rabs exact <= 8113).
  { unfold exact, exact_phase, Rdiv at 1. pose proof PI_RGT_0. pose proof PI_4.
    rewrite !Rabs_mult, (Rabs_right 2), (Rabs_right PI), (Rabs_right fc), (Rabs_right (/ _)), (Rabs_right (INR k / fs)) by lra.
    assert (D : 0 <= Rabs v * (INR k / fs) <= 7.6).
    { split; [apply Rmult_le_pos; [apply Rabs_pos|exact T]|]. replace 7.6 with (7600 * 1e-3) by lra.
      apply Rmult_le_compat; [apply Rabs_pos|lra|exact V|exact Hk]. }
    set (d := Rabs v * (INR k / fs)) in *.
    assert (2 * PI * d <= 8 * 7.6) by (apply Rmult_le_compat; lra).
    assert (0 <= 2 * PI * d) by (apply Rmult_le_pos; lra).
    assert (2 * PI * d * fc <= 8 * 7.6 * 40e9) by (apply Rmult_le_compat; lra). lra. }
  assert (B : Rabs (sat_rotation_fp 24 fc (rnd 24 v) (sample_time_fp 24 fs k) - exact) <= 0.01).
  { eapply Rle_trans; [exact A|]. apply Rle_trans with (20 * (1 / 16777216) * 8113); [|lra].
    apply Rmult_le_compat; try lra. apply Rabs_pos. }
  split; [exact B|]. unfold sat_factor_fp, cexpi. cbn [re im].
  destruct (cos_sin_lip (sat_rotation_fp 24 fc (rnd 24 v) (sample_time_fp 24 fs k)) exact) as [L1 L2].
  split; lra.
Qed.

Lemma C95_grid_l : forall fc fs v k, supported_carrier fc -> 0 < fs -> 0 < v -> 4200000 <= exact_phase fc (v * (INR k / fs)) ->
  exists z : Z, sat_rotation_fp 24 fc (rnd 24 v) (sample_time_fp 24 fs k) = IZR z / 2.
Proof.
  intros fc fs v k F Hs V E. assert (Hf : 0 < fc) by (pose proof (supported_pos fc F); lra).
  assert (K : (0 < k)%nat).
  { destruct k; [exfalso|lia]. cbn [INR] in E. unfold exact_phase, Rdiv in E. rewrite Rmult_0_l, !Rmult_0_r, !Rmult_0_l in E. lra. }
  pose proof (rotation_pos 24 fc fs ltac:(lia) Hf Hs v k V K) as N. apply near_bounds in N.
  pose proof (unit_24 24 ltac:(lia)) as UU.
  unfold sat_rotation_fp. destruct (rnd_multiple 24 (rnd 24 (rnd 24 (two_pi_fp 24 / wavelength_fp 24 fc) * rnd 24 v) * sample_time_fp 24 fs k) 22) as [z Z].
  - replace (powerRZ 2 22) with 4194304 by (simpl; lra). eapply Rle_trans; [|exact (proj1 N)].
    apply Rle_trans with (4200000 * (1 - 1e-3 / 1)); [lra|]. apply Rmult_le_compat; lra.
  - exists z. rewrite Z. simpl. lra.
Qed.

Lemma C95_refuted_l : forall fc fs k, supported_carrier fc -> 0 < fs -> INR k / fs = 16 -> exists v,
  0 < v <= 7200 /\
  1 / 4 <= Rabs (sat_rotation_fp 24 fc (rnd 24 v) (sample_time_fp 24 fs k) - exact_phase fc (v * (INR k / fs))).
Proof.
  intros fc fs k F Hs K. pose proof (supported_pos fc F) as SP. pose proof PI_RGT_0 as P0. pose proof PI2_3_2 as P3.
  set (v := 4300000.25 * 299792458 / (2 * PI * fc * 16)).
  assert (X : 0 < PI * fc) by (apply Rmult_lt_0_compat; lra).
  assert (EX : exact_phase fc (v * (INR k / fs)) = IZR 4300000 + 1 / 4).
  { rewrite K. unfold exact_phase, v. field_simplify; lra. }
  assert (V : 0 < v <= 7200).
  { unfold v. split; [apply Rdiv_lt_0_compat; lra|]. apply (Rmult_le_reg_r (2 * PI * fc * 16)); [lra|].
    unfold Rdiv. rewrite Rmult_assoc, Rinv_l by lra.
    assert (3 * 1.9e9 <= PI * fc) by (apply Rmult_le_compat; lra). lra. }
  exists v. split; [exact V|].
  destruct (C95_grid_l fc fs v k F Hs (proj1 V)) as [z Z]; [rewrite EX; lra|].
  rewrite Z, EX. replace (IZR z / 2 - (IZR 4300000 + 1 / 4)) with (IZR (2 * z - 4 * 4300000 - 1) / 4) by (rewrite !minus_IZR, !mult_IZR; field).
  assert (OD : (2 * z - 4 * 4300000 - 1 <= -1 \/ 1 <= 2 * z - 4 * 4300000 - 1)%Z) by lia.
  destruct OD as [O|O]; apply IZR_le in O; unfold Rabs; destruct (Rcase_abs _); lra.
Qed.

Lemma C95_example_l : supported_carrier 20e9 /\ INR 14 / 14000 <= 1e-3 /\ INR 16 / 1 = 16 /\
  topology_sat_speed 600000 0 0 = satellite_speed 600000 /\ 7500 < satellite_speed 600000.
Proof.
  split; [right; lra|]. split; [rewrite INR_IZR_INZ; cbn; lra|]. split; [rewrite INR_IZR_INZ; cbn; lra|].
  split; [unfold topology_sat_speed; rewrite !Rmult_0_l, cos_0; lra|].
  assert (H := satellite_speed_sq 600000 ltac:(lra)). assert (P := satellite_speed_pos 600000 ltac:(lra)).
  set (v := satellite_speed 600000) in *. unfold grav_const, earth_mass, earth_radius in H.
  assert (V : 7500 ^ 2 < v ^ 2) by lra. nra.
Qed.
