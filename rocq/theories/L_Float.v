(* Lemmas about rounding and about the line-of-sight phase *)
From Coq Require Import Reals ZArith Lra Lia Psatz.
From Verif Require Import M_Base M_Params M_Cplx M_Float S_Float L_Bessel.
Open Scope R_scope.

Lemma ln2_pos : 0 < ln 2.
Proof. rewrite <- ln_1. apply ln_increasing; lra. Qed.

Lemma two_z_pos k : 0 < powerRZ 2 k.
Proof. apply powerRZ_lt. lra. Qed.

Lemma two_z_ln k : powerRZ 2 k = exp (IZR k * ln 2).
Proof. rewrite powerRZ_Rpower by lra. reflexivity. Qed.

Lemma two_z_add a b : powerRZ 2 (a + b) = powerRZ 2 a * powerRZ 2 b.
Proof. apply powerRZ_add. lra. Qed.

Lemma two_z_lt a b : powerRZ 2 a < powerRZ 2 b -> (a < b)%Z.
Proof.
  rewrite !two_z_ln. intros H. apply exp_lt_inv in H. apply lt_IZR.
  apply (Rmult_lt_reg_r (ln 2)); [exact ln2_pos | exact H].
Qed.

Lemma two_z_nonneg k : (0 <= k)%Z -> powerRZ 2 k = IZR (2 ^ k).
Proof.
  intros H. rewrite <- (Z2Nat.id k H). rewrite <- pow_IZR. rewrite <- pow_powerRZ. reflexivity.
Qed.

Lemma mag_spec x : 0 < x -> powerRZ 2 (mag x) <= x < powerRZ 2 (mag x + 1).
Proof.
  intros Hx. unfold mag. destruct (base_Int_part (ln x / ln 2)) as [A B].
  assert (L := ln2_pos). set (n := Int_part (ln x / ln 2)) in *.
  assert (E : ln x = ln x / ln 2 * ln 2) by (field; lra).
  rewrite !two_z_ln. rewrite <- (exp_ln x Hx) at 1 2. split.
  - assert (IZR n * ln 2 <= ln x) by (rewrite E; apply Rmult_le_compat_r; lra).
    destruct H as [H | H]; [left; apply exp_increasing; exact H | right; rewrite H; reflexivity].
  - apply exp_increasing. rewrite E at 1. apply Rmult_lt_compat_r; [lra|].
    rewrite plus_IZR. lra.
Qed.

Lemma mag_unique x k : powerRZ 2 k <= x < powerRZ 2 (k + 1) -> mag x = k.
Proof.
  intros [A B]. assert (P := two_z_pos k). destruct (mag_spec x) as [C D]; [lra|].
  assert (powerRZ 2 k < powerRZ 2 (mag x + 1)) by lra.
  assert (powerRZ 2 (mag x) < powerRZ 2 (k + 1)) by lra.
  apply two_z_lt in H. apply two_z_lt in H0. lia.
Qed.

Lemma nearest_err y : Rabs (IZR (nearest_int y) - y) <= 1 / 2.
Proof.
  unfold nearest_int. destruct (base_Int_part y) as [A B]. unfold frac_part.
  set (n := Int_part y) in *. unfold Rltb.
  destruct (Rlt_dec (y - IZR n) (1 / 2)); [apply Rabs_le; lra|].
  destruct (Rlt_dec (1 / 2) (y - IZR n)); [rewrite plus_IZR; apply Rabs_le; lra|].
  destruct (Z.even n); [|rewrite plus_IZR]; apply Rabs_le; lra.
Qed.

Lemma nearest_unique y n : Rabs (y - IZR n) < 1 / 2 -> nearest_int y = n.
Proof.
  intros H. assert (E := nearest_err y). apply Rabs_def2 in H.
  set (m := nearest_int y) in *.
  assert (D : - (1 / 2) <= IZR m - y <= 1 / 2).
  { assert (X := Rle_abs (IZR m - y)). assert (Y := Rle_abs (- (IZR m - y))). rewrite Rabs_Ropp in Y. lra. }
  assert (IZR m < IZR (n + 1)) by (rewrite plus_IZR; lra).
  assert (IZR n < IZR (m + 1)) by (rewrite plus_IZR; lra).
  apply lt_IZR in H0. apply lt_IZR in H1. lia.
Qed.

Lemma rnd_pos_eq p x : 0 < x -> rnd p x = IZR (nearest_int (x / ulp p x)) * ulp p x.
Proof. intros H. unfold rnd, Rltb. destruct (Rlt_dec 0 x); [reflexivity | contradiction]. Qed.

Lemma ulp_pos p x : 0 < ulp p x.
Proof. apply two_z_pos. Qed.

Lemma rnd_err p x : 0 < x -> Rabs (rnd p x - x) <= x * powerRZ 2 (- p).
Proof.
  intros H. rewrite rnd_pos_eq by exact H. assert (U := ulp_pos p x).
  assert (N := nearest_err (x / ulp p x)).
  set (n := IZR (nearest_int (x / ulp p x))) in *.
  replace (n * ulp p x - x) with ((n - x / ulp p x) * ulp p x) by (field; lra).
  rewrite Rabs_mult, (Rabs_right (ulp p x)) by lra.
  apply Rle_trans with (1 / 2 * ulp p x); [apply Rmult_le_compat_r; lra|].
  unfold ulp. replace (mag x - (p - 1))%Z with (mag x + (- p + 1))%Z by lia.
  rewrite !two_z_add. change (powerRZ 2 1) with (2 * 1).
  destruct (mag_spec x H) as [A _]. assert (P := two_z_pos (- p)). nra.
Qed.

Lemma rnd_multiple p x k : powerRZ 2 k <= x -> exists z, rnd p x = IZR z * powerRZ 2 (k - (p - 1)).
Proof.
  intros H. assert (P := two_z_pos k). assert (Hx : 0 < x) by lra.
  rewrite rnd_pos_eq by exact Hx. destruct (mag_spec x Hx) as [A B].
  assert (L : powerRZ 2 k < powerRZ 2 (mag x + 1)) by lra. apply two_z_lt in L.
  exists (nearest_int (x / ulp p x) * 2 ^ (mag x - k))%Z.
  rewrite mult_IZR, <- two_z_nonneg by lia. rewrite Rmult_assoc, <- two_z_add.
  unfold ulp at 2. do 2 f_equal. lia.
Qed.

(* relative errors *)
Definition near (e x y : R) : Prop := Rabs (y - x) <= e * x.

Lemma near_bounds e x y : near e x y -> x * (1 - e) <= y <= x * (1 + e).
Proof.
  unfold near. intros H. assert (X := Rle_abs (y - x)). assert (Y := Rle_abs (- (y - x))).
  rewrite Rabs_Ropp in Y. lra.
Qed.

Lemma bounds_near e x y : x * (1 - e) <= y <= x * (1 + e) -> near e x y.
Proof. unfold near. intros H. apply Rabs_le. lra. Qed.

Lemma near_rnd p x : 0 < x -> near (powerRZ 2 (- p)) x (rnd p x).
Proof. intros H. unfold near. rewrite Rmult_comm. apply rnd_err. exact H. Qed.

Lemma near_trans a b x y z : 0 < x -> 0 <= a -> 0 <= b -> near a x y -> near b y z -> near (a + b + a * b) x z.
Proof.
  intros Hx Ha Hb H1 H2. apply near_bounds in H1. apply near_bounds in H2. apply bounds_near.
  destruct H1 as [A B], H2 as [C D]. assert (0 <= a * b) by nra. split; [|nra].
  destruct (Rle_dec b 1) as [Q | Q].
  - assert (x * (1 - a) * (1 - b) <= y * (1 - b)) by (apply Rmult_le_compat_r; lra). nra.
  - assert (x * (1 + a) * (1 - b) <= y * (1 - b)) by nra. nra.
Qed.

Lemma near_mult a b x y x' y' : 0 < x -> 0 < y -> 0 <= a <= 1 -> 0 <= b <= 1 -> near a x x' -> near b y y' ->
  near (a + b + a * b) (x * y) (x' * y').
Proof.
  intros Hx Hy Ha Hb H1 H2. apply near_bounds in H1. apply near_bounds in H2. apply bounds_near.
  destruct H1 as [A B], H2 as [C D].
  assert (0 <= x * (1 - a)) by nra. assert (0 <= y * (1 - b)) by nra.
  assert (X1 : x * (1 - a) * (y * (1 - b)) <= x' * y') by (apply Rmult_le_compat; lra).
  assert (X2 : x' * y' <= x * (1 + a) * (y * (1 + b))) by (apply Rmult_le_compat; lra).
  assert (0 <= a * b) by nra. assert (0 < x * y) by nra.
  split; [| replace (x * y * (1 + (a + b + a * b))) with (x * (1 + a) * (y * (1 + b))) by ring; exact X2].
  replace (x * (1 - a) * (y * (1 - b))) with (x * y * (1 - (a + b + a * b)) + 2 * (x * y * (a * b))) in X1 by ring.
  assert (0 <= x * y * (a * b)) by (apply Rmult_le_pos; lra). lra.
Qed.

Lemma near_inv b y y' : 0 < y -> 0 <= b <= 1 / 2 -> near b y y' -> near (2 * b) (/ y) (/ y').
Proof.
  intros Hy Hb H. apply near_bounds in H. destruct H as [A B]. apply bounds_near.
  assert (Hy' : 0 < y') by nra.
  assert (I : 0 < / y) by (apply Rinv_0_lt_compat; exact Hy).
  assert (I' : 0 < / y') by (apply Rinv_0_lt_compat; exact Hy').
  assert (E : / y * y = 1) by (field; lra). assert (E' : / y' * y' = 1) by (field; lra).
  split.
  - apply (Rmult_le_reg_r (y * y')); [nra|].
    replace (/ y * (1 - 2 * b) * (y * y')) with ((1 - 2 * b) * y') by (field; lra).
    replace (/ y' * (y * y')) with y by (field; lra). nra.
  - apply (Rmult_le_reg_r (y * y')); [nra|].
    replace (/ y * (1 + 2 * b) * (y * y')) with ((1 + 2 * b) * y') by (field; lra).
    replace (/ y' * (y * y')) with y by (field; lra).
    assert ((1 + 2 * b) * (y * (1 - b)) <= (1 + 2 * b) * y') by (apply Rmult_le_compat_l; lra).
    assert (0 <= y * b * (1 - 2 * b)) by (apply Rmult_le_pos; [apply Rmult_le_pos|]; lra). nra.
Qed.

Lemma near_weaken a b x y : 0 < x -> a <= b -> near a x y -> near b x y.
Proof. unfold near. intros Hx H N. apply Rle_trans with (a * x); [exact N | nra]. Qed.

Lemma near_pos e x y : 0 < x -> e < 1 -> near e x y -> 0 < y.
Proof. intros Hx He N. apply near_bounds in N. nra. Qed.

Lemma two_z_le a b : (a <= b)%Z -> powerRZ 2 a <= powerRZ 2 b.
Proof.
  intros H. rewrite !two_z_ln. assert (L := ln2_pos). apply IZR_le in H.
  destruct (Rle_lt_or_eq_dec _ _ H) as [Q | Q].
  - left. apply exp_increasing. nra.
  - right. rewrite Q. reflexivity.
Qed.

Lemma unit_24 p : (24 <= p)%Z -> 0 < powerRZ 2 (- p) <= 1 / 16777216.
Proof.
  intros H. split; [apply two_z_pos|]. apply Rle_trans with (powerRZ 2 (- 24)); [apply two_z_le; lia|].
  right. simpl. lra.
Qed.

Lemma speed_of_light_val : speed_of_light = 299792458.
Proof. reflexivity. Qed.

Section Phase.
  Context (p : Z) (fc d : R) (Hp : (24 <= p <= 53)%Z) (Hf : 0 < fc) (Hd : 0 < d).
  Let u := powerRZ 2 (- p).

  Lemma u_small : 0 < u <= 1 / 16777216.
  Proof. apply unit_24. lia. Qed.

  Lemma near_round a b x y : 0 < x -> 0 <= a <= 1 / 2 -> a + u + a * u <= b -> near a x y -> near b x (rnd p y).
  Proof.
    intros Hx Ha Hb N. assert (U := u_small). assert (Hy : 0 < y) by (apply (near_pos a x); [exact Hx | lra | exact N]).
    apply (near_weaken (a + u + a * u)); [exact Hx | exact Hb|].
    apply (near_trans a u x y); try lra; try exact N. apply near_rnd. exact Hy.
  Qed.

  Lemma near_two_pi : near (2.1 * u) (2 * PI) (two_pi_fp p).
  Proof.
    assert (U := u_small). assert (P := PI_RGT_0).
    apply (near_round u); [lra | lra | nra |].
    assert (N := near_rnd 53 PI P). apply near_bounds in N. apply bounds_near.
    assert (L : powerRZ 2 (- (53)) <= u) by (apply two_z_le; lia). nra.
  Qed.

  Lemma near_wavelength : near (4.2 * u) (speed_of_light / fc) (wavelength_fp p fc).
  Proof.
    assert (U := u_small). assert (C : 0 < speed_of_light) by (rewrite speed_of_light_val; lra).
    assert (F : 0 < / fc) by (apply Rinv_0_lt_compat; exact Hf).
    assert (X : 0 < speed_of_light * / fc) by (apply Rmult_lt_0_compat; assumption).
    unfold wavelength_fp, Rdiv. apply (near_round (3.1 * u)); [exact X | lra | nra |].
    apply (near_weaken (u + 2 * u + u * (2 * u))); [exact X | nra|].
    apply near_mult; try assumption; try lra; [apply near_rnd; exact C|].
    apply near_inv; [exact Hf | lra | apply near_rnd; exact Hf].
  Qed.

  Lemma near_quotient d' : near u d d' ->
    near (12.8 * u) (exact_phase fc d) (rnd p (two_pi_fp p * d') / wavelength_fp p fc).
  Proof.
    intros N. assert (U := u_small). assert (P := PI_RGT_0).
    assert (C : 0 < speed_of_light) by (rewrite speed_of_light_val; lra).
    assert (X : 0 < speed_of_light / fc) by (apply Rdiv_lt_0_compat; assumption).
    assert (X' : 0 < / (speed_of_light / fc)) by (apply Rinv_0_lt_compat; exact X).
    assert (Y : 0 < 2 * PI * d) by nra.
    replace (exact_phase fc d) with (2 * PI * d * / (speed_of_light / fc))
      by (unfold exact_phase; rewrite speed_of_light_val; field; lra).
    assert (Z : 0 < 2 * PI * d * / (speed_of_light / fc)) by (apply Rmult_lt_0_compat; assumption).
    unfold Rdiv at 2.
    apply (near_weaken (4.3 * u + 2 * (4.2 * u) + 4.3 * u * (2 * (4.2 * u)))); [exact Z | nra |].
    apply near_mult; try assumption; try lra; [| apply near_inv; [exact X | lra | exact near_wavelength]].
    apply (near_round (3.2 * u)); [exact Y | lra | nra |].
    apply (near_weaken (2.1 * u + u + 2.1 * u * u)); [exact Y | nra |].
    apply near_mult; try lra; [exact near_two_pi | exact N].
  Qed.

  Lemma near_phase : near (14 * u) (exact_phase fc d) (los_phase_fp p fc (rnd p d)).
  Proof.
    assert (U := u_small). unfold los_phase_fp. apply (near_round (12.8 * u)).
    - assert (P := PI_RGT_0). unfold exact_phase. apply Rdiv_lt_0_compat; [|lra].
      apply Rmult_lt_0_compat; [nra | exact Hf].
    - lra.
    - nra.
    - apply near_quotient. apply near_rnd. exact Hd.
  Qed.
End Phase.

Lemma exact_phase_pos fc d : 0 < fc -> 0 < d -> 0 < exact_phase fc d.
Proof.
  intros Hf Hd. assert (P := PI_RGT_0). unfold exact_phase. apply Rdiv_lt_0_compat; [|lra].
  apply Rmult_lt_0_compat; [nra | exact Hf].
Qed.

Lemma exact_phase_le fc d F D : 0 < fc <= F -> 0 < d <= D -> exact_phase fc d <= 8 * D * F / 299792458.
Proof.
  intros Hf Hd. assert (P := PI_RGT_0). assert (P4 := PI_4). unfold exact_phase, Rdiv.
  apply Rmult_le_compat_r; [lra|]. apply Rmult_le_compat; nra.
Qed.

Lemma exact_phase_ge fc d F D : 0 < F <= fc -> 0 < D <= d -> 6 * D * F / 299792458 <= exact_phase fc d.
Proof.
  intros Hf Hd. assert (P := PI2_3_2). unfold exact_phase, Rdiv.
  apply Rmult_le_compat_r; [lra|]. apply Rmult_le_compat; nra.
Qed.

Lemma cos_sin_lip a b : Rabs (cos a - cos b) <= Rabs (a - b) /\ Rabs (sin a - sin b) <= Rabs (a - b).
Proof.
  assert (S : Rabs (sin ((a - b) / 2)) <= Rabs (a - b) / 2).
  { apply Rle_trans with (1 := sin_abs_le _). unfold Rdiv. rewrite Rabs_mult, (Rabs_right (/ 2)) by lra. lra. }
  assert (A := Rabs_pos (sin ((a - b) / 2))).
  split; [rewrite form2 | rewrite form4].
  - rewrite !Rabs_mult, (Rabs_left (-2)) by lra.
    assert (Q : Rabs (sin ((a + b) / 2)) <= 1) by (apply Rabs_le; apply SIN_bound).
    assert (Q0 := Rabs_pos (sin ((a + b) / 2))). nra.
  - rewrite !Rabs_mult, (Rabs_right 2) by lra.
    assert (Q : Rabs (cos ((a + b) / 2)) <= 1) by (apply Rabs_le; apply COS_bound).
    assert (Q0 := Rabs_pos (cos ((a + b) / 2))). nra.
Qed.

Lemma supported_pos fc : supported_carrier fc -> 1.9e9 <= fc <= 40e9.
Proof. unfold supported_carrier. lra. Qed.

Lemma C87_double_l : forall fc d, supported_carrier fc -> 0 < d <= 5e7 ->
  Rabs (los_phase_fp 53 fc (rnd 53 d) - exact_phase fc d) <= 1e-4 /\
  Rabs (re (los_delay_factor_fp 53 fc d) - cos (exact_phase fc d)) <= 1e-4 /\
  Rabs (im (los_delay_factor_fp 53 fc d) - sin (exact_phase fc d)) <= 1e-4.
Proof.
  intros fc d Hf Hd. apply supported_pos in Hf.
  assert (N := near_phase 53 fc d ltac:(lia) ltac:(lra) ltac:(lra)). unfold near in N.
  assert (E := exact_phase_le fc d 40e9 5e7 ltac:(lra) Hd).
  assert (B : Rabs (los_phase_fp 53 fc (rnd 53 d) - exact_phase fc d) <= 1e-4).
  { apply Rle_trans with (1 := N). change (powerRZ 2 (- (53))) with (/ 2 ^ 53).
    assert (V : 2 ^ 53 = 9007199254740992) by (simpl; lra). rewrite V.
    apply Rle_trans with (14 * / 9007199254740992 * (8 * 5e7 * 40e9 / 299792458)); [|lra].
    apply Rmult_le_compat_l; [lra | exact E]. }
  split; [exact B|]. unfold los_delay_factor_fp, cexpi. simpl.
  destruct (cos_sin_lip (los_phase_fp 53 fc (rnd 53 d)) (exact_phase fc d)) as [C D].
  split; [apply Rle_trans with (1 := C) | apply Rle_trans with (1 := D)]; exact B.
Qed.

(* the quotient before the last rounding *)
Lemma quotient_ge fc d F D : 0 < F <= fc -> 0 < D <= d ->
  6 * D * F / 299792458 * (1 - 12.8 / 16777216) <= rnd 24 (two_pi_fp 24 * d) / wavelength_fp 24 fc.
Proof.
  intros Hf Hd. assert (U := unit_24 24 ltac:(lia)).
  assert (V : powerRZ 2 (- (24)) = 1 / 16777216) by (simpl; lra).
  assert (N : near (powerRZ 2 (- (24))) d d).
  { unfold near. rewrite Rminus_diag_eq, Rabs_R0 by reflexivity. nra. }
  apply (near_quotient 24 fc d ltac:(lia) ltac:(lra) ltac:(lra)) in N.
  apply near_bounds in N. destruct N as [N _]. apply Rle_trans with (2 := N). rewrite V.
  replace (12.8 * (1 / 16777216)) with (12.8 / 16777216) by lra.
  apply Rmult_le_compat_r; [lra | apply exact_phase_ge; assumption].
Qed.

Lemma C87_single_l : forall fc d, 6e5 <= d ->
  (1.9e9 <= fc -> exists z : Z, los_phase_fp 24 fc d = 2 * IZR z) /\
  (19e9 <= fc -> exists z : Z, los_phase_fp 24 fc d = 16 * IZR z).
Proof.
  intros fc d Hd. split; intros Hf; unfold los_phase_fp.
  - assert (Q := quotient_ge fc d 1.9e9 6e5 ltac:(lra) ltac:(lra)).
    destruct (rnd_multiple 24 (rnd 24 (two_pi_fp 24 * d) / wavelength_fp 24 fc) 24) as [z E].
    + apply Rle_trans with (2 := Q). rewrite two_z_nonneg by lia. change (2 ^ 24)%Z with 16777216%Z. lra.
    + exists z. rewrite E. change (powerRZ 2 (24 - (24 - 1))) with (2 * 1). ring.
  - assert (Q := quotient_ge fc d 19e9 6e5 ltac:(lra) ltac:(lra)).
    destruct (rnd_multiple 24 (rnd 24 (two_pi_fp 24 * d) / wavelength_fp 24 fc) 27) as [z E].
    + apply Rle_trans with (2 := Q). rewrite two_z_nonneg by lia. change (2 ^ 27)%Z with 134217728%Z. lra.
    + exists z. rewrite E. rewrite two_z_nonneg by lia. change (2 ^ (27 - (24 - 1)))%Z with 16%Z. ring.
Qed.

(* distances within half a spacing of 2^20 + 1 m are stored as 2^20 + 1 m *)
Lemma rnd_2_20 x : Rabs (x - 1048577) < 1 / 16 -> rnd 24 x = 1048577.
Proof.
  intros H. apply Rabs_def2 in H.
  assert (M : mag x = 20%Z).
  { apply mag_unique. rewrite !two_z_nonneg by lia. change (2 ^ 20)%Z with 1048576%Z.
    change (2 ^ (20 + 1))%Z with 2097152%Z. lra. }
  rewrite rnd_pos_eq by lra. unfold ulp. rewrite M. change (20 - (24 - 1))%Z with (-3)%Z.
  assert (V : powerRZ 2 (-3) = 1 / 8) by (simpl; lra). rewrite V.
  rewrite (nearest_unique _ 8388616); [lra|]. apply Rabs_def1; lra.
Qed.

Lemma C87_refuted_l : forall fc, supported_carrier fc -> exists d d',
  1e6 <= d < d' /\ d' <= 1.1e6 /\
  exact_phase fc d' = exact_phase fc d + PI /\
  cexpi (exact_phase fc d') = Cx (- re (cexpi (exact_phase fc d))) (- im (cexpi (exact_phase fc d))) /\
  los_delay_factor_fp 24 fc d' = los_delay_factor_fp 24 fc d.
Proof.
  intros fc Hf. apply supported_pos in Hf.
  set (q := 299792458 / fc / 4).
  assert (Q : 0 < q < 1 / 16).
  { unfold q. split.
    - assert (0 < 299792458 / fc) by (apply Rdiv_lt_0_compat; lra). lra.
    - apply (Rmult_lt_reg_r fc); [lra|]. replace (299792458 / fc / 4 * fc) with (299792458 / 4) by (field; lra). lra. }
  assert (E : exact_phase fc (1048577 + q) = exact_phase fc (1048577 - q) + PI).
  { unfold exact_phase, q. field. lra. }
  exists (1048577 - q), (1048577 + q). split; [lra|]. split; [lra|]. split; [exact E|]. split.
  - rewrite E. unfold cexpi. simpl. rewrite neg_cos, neg_sin. reflexivity.
  - unfold los_delay_factor_fp.
    rewrite !rnd_2_20; [reflexivity | |]; apply Rabs_def1; lra.
Qed.

Lemma rnd_example : rnd 2 (1 / 3) = 3 / 8.
Proof.
  assert (M : mag (1 / 3) = (-2)%Z) by (apply mag_unique; simpl; lra).
  rewrite rnd_pos_eq by lra. unfold ulp. rewrite M.
  assert (V : powerRZ 2 (-2 - (2 - 1)) = 1 / 8) by (simpl; lra). rewrite V.
  rewrite (nearest_unique _ 3); [lra|]. apply Rabs_def1; lra.
Qed.

Lemma C87_accuracy_l : forall p fc d, (24 <= p <= 53)%Z -> supported_carrier fc -> 0 < d ->
  Rabs (los_phase_fp p fc (rnd p d) - exact_phase fc d) <= 14 * powerRZ 2 (- p) * exact_phase fc d.
Proof.
  intros p fc d Hp Hf Hd. apply supported_pos in Hf. apply (near_phase p fc d); lra || assumption.
Qed.
