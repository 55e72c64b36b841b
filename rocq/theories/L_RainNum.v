(* Certified upper bounds for the sums of bell curves in the rain model: fixed-point arithmetic
   on integers, interval by interval. *)
From Coq Require Import Reals ZArith List Bool Lia Lra.
Import ListNotations.
Open Scope R_scope.

(* fixed point numbers: v stands for v / 2^60 *)
Definition fx : Z := 1152921504606846976.
(* division by 2^60 as a shift *)
Definition shr (v : Z) : Z := Z.shiftr v 60.
Lemma shr_eq v : shr v = (v / fx)%Z.
Proof. unfold shr. rewrite Z.shiftr_div_pow2 by discriminate. reflexivity. Qed.
Fixpoint sq_dn (n : nat) (v : Z) : Z := match n with O => v | S n => sq_dn n (shr (v * v)) end.
Fixpoint sq_up (n : nat) (v : Z) : Z := match n with O => v | S n => sq_up n (shr (v * v) + 1)%Z end.

Lemma fx_pos : 0 < IZR fx. Proof. apply IZR_lt. reflexivity. Qed.
Lemma fxZ_pos : (0 < fx)%Z. Proof. reflexivity. Qed.

Lemma div_dn (a b : Z) : (0 < b)%Z -> IZR (a / b) * IZR b <= IZR a.
Proof. intros H. rewrite <- mult_IZR. apply IZR_le. rewrite Z.mul_comm. apply Z.mul_div_le, H. Qed.
Lemma div_up (a b : Z) : (0 < b)%Z -> IZR a <= IZR (a / b + 1) * IZR b.
Proof.
  intros H. rewrite <- mult_IZR. apply IZR_le. pose proof (Z.mul_succ_div_gt a b H). unfold Z.succ in *. lia.
Qed.

Lemma exp_double t : exp (2 * t) = exp t * exp t.
Proof. rewrite <- exp_plus. f_equal. ring. Qed.

Lemma sq_dn_ok n : forall v t, (0 <= v)%Z -> IZR v <= IZR fx * exp t -> IZR (sq_dn n v) <= IZR fx * exp (2 ^ n * t).
Proof.
  induction n as [|n IH]; intros v t V H; cbn [sq_dn]; rewrite ?shr_eq.
  - replace (2 ^ 0 * t) with t by (cbn; ring). exact H.
  - replace (2 ^ S n * t) with (2 ^ n * (2 * t)) by (cbn [pow]; ring). apply IH.
    + apply Z.div_pos; [nia|exact fxZ_pos].
    + pose proof (div_dn (v * v) fx fxZ_pos) as D. rewrite mult_IZR in D. rewrite exp_double.
      pose proof fx_pos as F. apply IZR_le in V. change (IZR 0) with 0 in V.
      apply (Rmult_le_reg_r (IZR fx)); [exact F|]. eapply Rle_trans; [exact D|].
      replace (IZR fx * (exp t * exp t) * IZR fx) with ((IZR fx * exp t) * (IZR fx * exp t)) by ring.
      apply Rmult_le_compat; assumption.
Qed.

Lemma sq_up_ok n : forall v t, IZR fx * exp t <= IZR v -> IZR fx * exp (2 ^ n * t) <= IZR (sq_up n v).
Proof.
  induction n as [|n IH]; intros v t H; cbn [sq_up]; rewrite ?shr_eq.
  - replace (2 ^ 0 * t) with t by (cbn; ring). exact H.
  - replace (2 ^ S n * t) with (2 ^ n * (2 * t)) by (cbn [pow]; ring). apply IH.
    pose proof (div_up (v * v) fx fxZ_pos) as D. rewrite mult_IZR in D. rewrite exp_double.
    pose proof fx_pos as F. pose proof (exp_pos t) as P.
    apply (Rmult_le_reg_r (IZR fx)); [exact F|]. eapply Rle_trans; [|exact D].
    replace (IZR fx * (exp t * exp t) * IZR fx) with ((IZR fx * exp t) * (IZR fx * exp t)) by ring.
    assert (0 <= IZR fx * exp t) by (apply Rmult_le_pos; lra).
    apply Rmult_le_compat; assumption.
Qed.

(* bounds on exp (- n / d), n and d positive *)
Definition exp_dn (n d : Z) : Z := let v := (fx - (n * 2 ^ 40 / d + 1))%Z in if (v <? 0)%Z then 0%Z else sq_dn 20 v.
Definition exp_up (n d : Z) : Z := let u := (n * 2 ^ 40 / d)%Z in sq_up 20 (fx - u + (shr (u * u) + 1))%Z.

Lemma fx_40 : IZR fx = IZR (2 ^ 40) * 2 ^ 20.
Proof. rewrite (pow_IZR 2 20), <- mult_IZR. f_equal. Qed.

Lemma exp_dn_ok n d : (0 < d)%Z -> IZR (exp_dn n d) <= IZR fx * exp (- (IZR n / IZR d)).
Proof.
  intros D. unfold exp_dn. cbv zeta. set (v := (fx - (n * 2 ^ 40 / d + 1))%Z).
  destruct (v <? 0)%Z eqn:E; [apply Rmult_le_pos; left; [apply fx_pos|apply exp_pos]|].
  apply Z.ltb_ge in E. replace (- (IZR n / IZR d)) with (2 ^ 20 * (- (IZR n / IZR d) / 2 ^ 20)) by (field; apply not_0_IZR; lia).
  apply sq_dn_ok; [exact E|]. pose proof fx_pos as F.
  set (t := - (IZR n / IZR d) / 2 ^ 20).
  assert (IZR v <= IZR fx * (1 + t)).
  { unfold v. rewrite minus_IZR. pose proof (div_up (n * 2 ^ 40) d D) as U. rewrite (mult_IZR n) in U.
    apply IZR_lt in D. change (IZR 0) with 0 in D.
    enough (IZR n * IZR (2 ^ 40) / IZR d <= IZR (n * 2 ^ 40 / d + 1)).
    { unfold t. replace (IZR fx * (1 + - (IZR n / IZR d) / 2 ^ 20)) with (IZR fx - (IZR fx / 2 ^ 20) * (IZR n / IZR d)) by (field; lra).
      rewrite fx_40 at 3. replace (IZR (2 ^ 40) * 2 ^ 20 / 2 ^ 20) with (IZR (2 ^ 40)) by (field).
      replace (IZR (2 ^ 40) * (IZR n / IZR d)) with (IZR n * IZR (2 ^ 40) / IZR d) by (field; lra). lra. }
    apply (Rmult_le_reg_r (IZR d)); [exact D|]. replace (IZR n * IZR (2 ^ 40) / IZR d * IZR d) with (IZR n * IZR (2 ^ 40)) by (field; lra). exact U. }
  eapply Rle_trans; [exact H|]. apply Rmult_le_compat_l; [lra|].
  apply exp_ineq1_le.
Qed.

Lemma exp_up_ok n d : (0 <= n)%Z -> (0 < d)%Z -> IZR fx * exp (- (IZR n / IZR d)) <= IZR (exp_up n d).
Proof.
  intros N D. unfold exp_up. cbv zeta. rewrite shr_eq. set (u := (n * 2 ^ 40 / d)%Z).
  replace (- (IZR n / IZR d)) with (2 ^ 20 * (- (IZR n / IZR d) / 2 ^ 20)) by (field; apply not_0_IZR; lia).
  apply sq_up_ok. pose proof fx_pos as F.
  assert (U0 : (0 <= u)%Z) by (apply Z.div_pos; nia).
  set (y := IZR u / IZR fx). assert (Y : 0 <= y) by (apply IZR_le in U0; change (IZR 0) with 0 in U0; unfold y; apply Rmult_le_pos; [lra|left; apply Rinv_0_lt_compat; lra]).
  assert (- (IZR n / IZR d) / 2 ^ 20 <= - y).
  { pose proof (div_dn (n * 2 ^ 40) d D) as V. fold u in V. rewrite (mult_IZR n) in V. apply IZR_lt in D. change (IZR 0) with 0 in D.
    unfold y. rewrite fx_40. assert (P : 0 < 2 ^ 20) by (apply pow_lt; lra). assert (Q : 0 < IZR (2 ^ 40)) by (apply IZR_lt; reflexivity).
    apply (Rmult_le_reg_r (IZR (2 ^ 40) * 2 ^ 20 * IZR d)); [repeat apply Rmult_lt_0_compat; lra|].
    replace (- (IZR n / IZR d) / 2 ^ 20 * (IZR (2 ^ 40) * 2 ^ 20 * IZR d)) with (- (IZR n * IZR (2 ^ 40))) by (field; lra).
    replace (- (IZR u / (IZR (2 ^ 40) * 2 ^ 20)) * (IZR (2 ^ 40) * 2 ^ 20 * IZR d)) with (- (IZR u * IZR d)) by (field; lra). lra. }
  assert (exp (- (IZR n / IZR d) / 2 ^ 20) <= 1 - y + y * y).
  { apply Rle_trans with (exp (- y)).
    { destruct H as [H|H]; [left; apply exp_increasing, H|rewrite H; lra]. }
    rewrite exp_Ropp. pose proof (exp_ineq1_le y). apply Rle_trans with (/ (1 + y)); [apply Rinv_le_contravar; lra|].
    apply (Rmult_le_reg_r (1 + y)); [lra|]. rewrite Rinv_l by lra. replace ((1 - y + y * y) * (1 + y)) with (1 + y * y * y) by ring.
    pose proof (Rmult_le_pos _ _ (Rmult_le_pos _ _ Y Y) Y). lra. }
  eapply Rle_trans; [apply Rmult_le_compat_l; [lra|exact H0]|].
  rewrite plus_IZR, minus_IZR. pose proof (div_up (u * u) fx fxZ_pos) as V. rewrite mult_IZR in V.
  enough (IZR fx * (y * y) <= IZR (u * u / fx + 1)).
  { replace (IZR fx * (1 - y + y * y)) with (IZR fx - IZR fx * y + IZR fx * (y * y)) by ring.
    replace (IZR fx * y) with (IZR u) by (unfold y; field; lra). lra. }
  apply (Rmult_le_reg_r (IZR fx)); [exact F|]. replace (IZR fx * (y * y) * IZR fx) with (IZR u * IZR u) by (unfold y; field; lra). exact V.
Qed.

(* ---- bell curves on an interval; all constants in units of 10^-6 ---- *)
Definition mu (z : Z) : R := IZR z / 1000000.
(* the squared distances to the centre b: the least and the largest over [lo, hi] *)
Definition near (b lo hi : Z) : Z := if (b <? lo)%Z then (lo - b)%Z else if (hi <? b)%Z then (b - hi)%Z else 0%Z.
Definition far (b lo hi : Z) : Z := Z.max (Z.abs (lo - b)) (Z.abs (hi - b)).
(* upper bound, in units of 10^-6 / 2^60 *)
Definition bump_up (lo hi : Z) (t : Z * Z * Z) : Z :=
  let '(a, b, c) := t in
  if (0 <=? a)%Z then (a * exp_up (near b lo hi * near b lo hi) (c * c))%Z
  else (a * exp_dn (far b lo hi * far b lo hi) (c * c))%Z.

Definition bump (x : R) (t : Z * Z * Z) : R := let '(a, b, c) := t in mu a * exp (- ((x - mu b) / mu c) ^ 2).

Lemma bump_arg x b c : IZR c <> 0 -> ((x - mu b) / mu c) ^ 2 = (1000000 * x - IZR b) ^ 2 / IZR (c * c).
Proof. intros C. rewrite mult_IZR. unfold mu. field. exact C. Qed.

Lemma square_le a b : 0 <= a -> a <= Rabs b -> a ^ 2 <= b ^ 2.
Proof.
  intros A H. replace (b ^ 2) with (Rabs b ^ 2) by (rewrite pow2_abs; reflexivity). cbn [pow]. rewrite !Rmult_1_r.
  apply Rmult_le_compat; lra.
Qed.
Lemma square_ge a b : Rabs b <= a -> b ^ 2 <= a ^ 2.
Proof.
  intros H. replace (b ^ 2) with (Rabs b ^ 2) by (rewrite pow2_abs; reflexivity). cbn [pow]. rewrite !Rmult_1_r.
  pose proof (Rabs_pos b). apply Rmult_le_compat; lra.
Qed.

Lemma near_ok b lo hi y : IZR lo <= y <= IZR hi -> 0 <= IZR (near b lo hi) /\ IZR (near b lo hi) <= Rabs (y - IZR b).
Proof.
  intros [L H]. unfold near. destruct (b <? lo)%Z eqn:E1; [|destruct (hi <? b)%Z eqn:E2].
  - apply Z.ltb_lt, IZR_lt in E1. rewrite minus_IZR, Rabs_right; lra.
  - apply Z.ltb_lt, IZR_lt in E2. rewrite minus_IZR, Rabs_left; lra.
  - split; [lra|apply Rabs_pos].
Qed.
Lemma far_ok b lo hi y : IZR lo <= y <= IZR hi -> Rabs (y - IZR b) <= IZR (far b lo hi).
Proof.
  intros [L H]. unfold far.
  assert (A : IZR (Z.abs (lo - b)) <= IZR (Z.max (Z.abs (lo - b)) (Z.abs (hi - b)))) by (apply IZR_le; lia).
  assert (B : IZR (Z.abs (hi - b)) <= IZR (Z.max (Z.abs (lo - b)) (Z.abs (hi - b)))) by (apply IZR_le; lia).
  rewrite abs_IZR, minus_IZR in A, B.
  destruct (Rle_dec 0 (y - IZR b)) as [P|P].
  - rewrite Rabs_right by lra. rewrite (Rabs_right (IZR hi - IZR b)) in B by lra. lra.
  - rewrite Rabs_left by lra. rewrite (Rabs_left (IZR lo - IZR b)) in A by lra. lra.
Qed.

Lemma exp_mono x y : x <= y -> exp x <= exp y.
Proof. intros [H|H]; [left; apply exp_increasing, H|rewrite H; lra]. Qed.

Lemma bump_up_ok lo hi x t : snd t <> 0%Z -> mu lo <= x <= mu hi -> IZR fx * 1000000 * bump x t <= IZR (bump_up lo hi t).
Proof.
  destruct t as [[a b] c]. cbn [snd]. intros C [L H].
  assert (Y : IZR lo <= 1000000 * x <= IZR hi) by (unfold mu in L, H; lra).
  assert (CC : (0 < c * c)%Z) by nia.
  assert (C2 : 0 < IZR (c * c)) by (apply (IZR_lt 0), CC).
  unfold bump, bump_up. rewrite bump_arg by (apply not_0_IZR, C). pose proof fx_pos as F.
  destruct (0 <=? a)%Z eqn:E; rewrite (mult_IZR a).
  - apply Z.leb_le, IZR_le in E. destruct (near_ok b lo hi _ Y) as [N0 N1].
    assert (P : (0 <= near b lo hi)%Z) by (apply le_IZR, N0).
    pose proof (exp_up_ok (near b lo hi * near b lo hi) (c * c) ltac:(nia) CC) as U.
    replace (IZR fx * 1000000 * (mu a * exp (- ((1000000 * x - IZR b) ^ 2 / IZR (c * c)))))
      with (IZR a * (IZR fx * exp (- ((1000000 * x - IZR b) ^ 2 / IZR (c * c))))) by (unfold mu; field).
    apply Rmult_le_compat_l; [exact E|]. eapply Rle_trans; [|exact U]. apply Rmult_le_compat_l; [lra|]. apply exp_mono.
    apply Ropp_le_contravar. apply Rmult_le_compat_r; [left; apply Rinv_0_lt_compat, C2|].
    rewrite mult_IZR. pose proof (square_le _ _ N0 N1). cbn [pow] in *. lra.
  - apply Z.leb_gt, IZR_lt in E. pose proof (far_ok b lo hi _ Y) as N1.
    pose proof (exp_dn_ok (far b lo hi * far b lo hi) (c * c) CC) as U.
    replace (IZR fx * 1000000 * (mu a * exp (- ((1000000 * x - IZR b) ^ 2 / IZR (c * c)))))
      with (IZR a * (IZR fx * exp (- ((1000000 * x - IZR b) ^ 2 / IZR (c * c))))) by (unfold mu; field).
    apply Rmult_le_compat_neg_l; [lra|]. eapply Rle_trans; [exact U|]. apply Rmult_le_compat_l; [lra|]. apply exp_mono.
    apply Ropp_le_contravar. apply Rmult_le_compat_r; [left; apply Rinv_0_lt_compat, C2|].
    rewrite mult_IZR. pose proof (square_ge _ _ N1). cbn [pow] in *. lra.
Qed.

(* sums of bell curves and a linear function *)
Definition bells (ts : list (Z * Z * Z)) (m d : Z) (x : R) : R := fold_left (fun s t => s + bump x t) ts 0 + mu m * x + mu d.
(* upper bound on [lo, hi], in units of 10^-6 *)
Definition bells_up (ts : list (Z * Z * Z)) (m d lo hi : Z) : Z :=
  (shr (fold_left (fun s t => s + bump_up lo hi t) ts 0) + 1
   + ((if 0 <=? m then m * hi else m * lo) / 1000000 + 1) + d)%Z.

Lemma bells_up_ok ts m d lo hi x : Forall (fun t => snd t <> 0%Z) ts -> mu lo <= x <= mu hi ->
  bells ts m d x <= mu (bells_up ts m d lo hi).
Proof.
  intros HT HX.
  assert (S : forall r v, IZR fx * 1000000 * r <= IZR v ->
    IZR fx * 1000000 * fold_left (fun s t => s + bump x t) ts r <= IZR (fold_left (fun s t => s + bump_up lo hi t)%Z ts v)).
  { induction ts as [|t ts IH]; intros r v H; cbn [fold_left]; [exact H|]. inversion HT; subst. apply IH; [assumption|].
    rewrite plus_IZR. pose proof (bump_up_ok lo hi x t H2 HX). lra. }
  specialize (S 0 0%Z ltac:(rewrite Rmult_0_r; lra)).
  unfold bells, bells_up. rewrite shr_eq. set (B := fold_left (fun s t => s + bump x t) ts 0) in *.
  set (Z0 := fold_left (fun s t => s + bump_up lo hi t)%Z ts 0%Z) in *.
  unfold mu at 3. rewrite !plus_IZR. pose proof (div_up Z0 fx fxZ_pos) as U1. pose proof fx_pos as F.
  assert (B <= (IZR (Z0 / fx) + 1) / 1000000).
  { rewrite plus_IZR in U1. apply (Rmult_le_reg_l (IZR fx * 1000000)); [lra|]. lra. }
  set (l := (if 0 <=? m then m * hi else m * lo)%Z).
  pose proof (div_up l 1000000 ltac:(lia)) as U2. rewrite plus_IZR in U2.
  assert (mu m * x <= IZR l / 1000000 / 1000000).
  { unfold l. destruct HX as [HL HH]. destruct (0 <=? m)%Z eqn:E; rewrite mult_IZR.
    - apply Z.leb_le, IZR_le in E. replace (IZR m * IZR hi / 1000000 / 1000000) with (mu m * mu hi) by (unfold mu; field).
      apply Rmult_le_compat_l; [unfold mu; lra|exact HH].
    - apply Z.leb_gt, IZR_lt in E. replace (IZR m * IZR lo / 1000000 / 1000000) with (mu m * mu lo) by (unfold mu; field).
      apply Rmult_le_compat_neg_l; [unfold mu; lra|exact HL]. }
  unfold mu at 2. lra.
Qed.
