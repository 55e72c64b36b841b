(* The LoS angles in finite precision. *)
From Coq Require Import Reals ZArith Lra Lia.
From Verif Require Import M_Base L_Base M_Params L_Distances M_Geometry L_Trig L_Geometry M_Float L_Float L_Position L_PowerFp M_AngleFp.
Open Scope R_scope.

(* ---- relative errors ---- *)
Definition rel (e x y : R) : Prop := Rabs (y - x) <= e * Rabs x.

Lemma rel_weaken a b x y : a <= b -> rel a x y -> rel b x y.
Proof. unfold rel. intros H K. pose proof (Rabs_pos x). nra. Qed.

Lemma rel_rnd p x : rel (powerRZ 2 (- p)) x (rnd p x).
Proof.
  unfold rel. destruct (Rtotal_order x 0) as [L|[E|G]].
  - pose proof (rnd_err p (- x) ltac:(lra)) as H. rewrite rnd_neg in H. rewrite (Rabs_left x L), <- Rabs_Ropp.
    replace (- (rnd p x - x)) with (- rnd p x - - x) by ring. lra.
  - subst x. rewrite rnd_0, Rminus_0_r, !Rabs_R0. lra.
  - pose proof (rnd_err p x G) as H. rewrite (Rabs_right x) by lra. lra.
Qed.

Lemma rel_abs e x y : rel e x y -> Rabs y <= (1 + e) * Rabs x.
Proof. unfold rel. intros H. pose proof (Rabs_triang (y - x) x). replace (y - x + x) with y in * by ring. lra. Qed.

Lemma rel_trans a b x y z : 0 <= b -> rel a x y -> rel b y z -> rel (a + b + a * b) x z.
Proof.
  intros Hb H K. pose proof (rel_abs _ _ _ H) as A. unfold rel in *. pose proof (Rabs_triang (z - y) (y - x)) as T.
  replace (z - y + (y - x)) with (z - x) in T by ring. nra.
Qed.

(* n units, then a rounding *)
Lemma rel_then p n x y : 0 <= n -> n * powerRZ 2 (- p) <= 1 -> rel (n * powerRZ 2 (- p)) x y -> rel ((n + 2) * powerRZ 2 (- p)) x (rnd p y).
Proof.
  intros Hn H1 H. pose proof (two_z_pos (- p)) as U. refine (rel_weaken _ _ _ _ _ (rel_trans _ _ _ _ _ _ H (rel_rnd p y))); nra.
Qed.

Lemma rel_sq a x y : 0 <= a <= 1 -> rel a x y -> rel (3 * a) (sq x) (sq y).
Proof.
  intros Ha H. pose proof (rel_abs _ _ _ H) as A. unfold rel, sq in *. replace (y * y - x * x) with ((y - x) * (y + x)) by ring.
  rewrite !Rabs_mult. pose proof (Rabs_triang y x). pose proof (Rabs_pos x). pose proof (Rabs_pos (y - x)). pose proof (Rabs_pos (y + x)).
  assert (B : Rabs (y + x) <= 3 * Rabs x) by nra.
  apply Rle_trans with (a * Rabs x * (3 * Rabs x)); [apply Rmult_le_compat; assumption|]. lra.
Qed.

Lemma rel_nonneg a x y : a <= 1 -> 0 <= x -> rel a x y -> 0 <= y.
Proof. unfold rel. intros Ha Hx H. rewrite (Rabs_right x) in H by lra. apply abs_le_inv in H. nra. Qed.

Lemma rel_plus a x x' y y' : 0 <= x -> 0 <= y -> rel a x x' -> rel a y y' -> rel a (x + y) (x' + y').
Proof.
  unfold rel. intros Hx Hy H K. rewrite (Rabs_right x) in H by lra. rewrite (Rabs_right y) in K by lra. rewrite (Rabs_right (x + y)) by lra.
  replace (x' + y' - (x + y)) with ((x' - x) + (y' - y)) by ring. pose proof (Rabs_triang (x' - x) (y' - y)). lra.
Qed.

Lemma rel_sqrt a x y : 0 <= a <= 1 -> 0 <= x -> rel a x y -> rel a (sqrt x) (sqrt y).
Proof.
  intros Ha Hx H. pose proof (rel_nonneg a x y (proj2 Ha) Hx H) as Hy. unfold rel in *. rewrite (Rabs_right x) in H by lra.
  rewrite (Rabs_right (sqrt x)) by (apply Rle_ge, sqrt_pos).
  destruct (Rle_lt_or_eq_dec 0 x Hx) as [P|Z].
  - pose proof (sqrt_lt_R0 x P) as S. pose proof (sqrt_pos y) as S'. pose proof (sqrt_sqrt x Hx) as E. pose proof (sqrt_sqrt y Hy) as E'.
    assert (D : (sqrt y - sqrt x) * (sqrt y + sqrt x) = y - x) by (transitivity (sqrt y * sqrt y - sqrt x * sqrt x); [ring|rewrite E, E'; reflexivity]).
    apply Rmult_le_reg_r with (sqrt y + sqrt x); [lra|].
    rewrite <- (Rabs_right (sqrt y + sqrt x)) at 1 by lra. rewrite <- Rabs_mult, D.
    assert (0 <= a * sqrt x * sqrt y) by (apply Rmult_le_pos; [apply Rmult_le_pos|]; lra).
    replace (a * sqrt x * (sqrt y + sqrt x)) with (a * sqrt x * sqrt y + a * (sqrt x * sqrt x)) by ring. rewrite E. lra.
  - subst x. rewrite Rmult_0_r, Rminus_0_r in H. pose proof (Rabs_pos y). assert (Rabs y = 0) by lra.
    assert (y = 0) by (destruct (Req_dec y 0); [assumption|exfalso; apply (Rabs_no_R0 y); assumption]). subst y. rewrite sqrt_0, Rminus_0_r, Rabs_R0. lra.
Qed.

Lemma rel_inv a x y : 0 <= a <= 1 / 2 -> x <> 0 -> rel a x y -> rel (2 * a) (/ x) (/ y).
Proof.
  intros Ha Hx H. unfold rel in *. pose proof (Rabs_pos_lt x Hx) as X. pose proof (Rabs_triang (x - y) y) as T. replace (x - y + y) with x in T by ring.
  rewrite Rabs_minus_sym in H. assert (Y : Rabs x / 2 <= Rabs y) by nra. assert (Y0 : y <> 0) by (intros ->; rewrite Rabs_R0 in Y; lra).
  replace (/ y - / x) with ((x - y) * / (x * y)) by (field; split; assumption). rewrite Rabs_mult, !Rabs_inv, Rabs_mult.
  assert (P : 0 < Rabs y) by lra. apply Rmult_le_reg_r with (Rabs x * Rabs y); [nra|].
  rewrite Rmult_assoc, Rinv_l, Rmult_1_r by nra. replace (2 * a * / Rabs x * (Rabs x * Rabs y)) with (2 * a * Rabs y) by (field; lra). nra.
Qed.

(* ---- the arc tangent ---- *)
Lemma atan_mvt_lt a b : a < b -> exists c, atan b - atan a = / (1 + c * c) * (b - a) /\ a < c < b.
Proof.
  intros L. destruct (MVT_cor2 atan (fun c => / (1 + c * c)) a b L) as (c & E & B).
  - intros c _. pose proof (derivable_pt_lim_atan c) as D. replace (c ^ 2) with (c * c) in D by ring. exact D.
  - exists c. split; assumption.
Qed.

Lemma MVT_abs_pair t t' : t <> t' -> exists c, atan t' - atan t = / (1 + c * c) * (t' - t) /\ (Rmin t t' <= c <= Rmax t t').
Proof.
  intros N. destruct (Rlt_le_dec t t') as [L|L].
  - destruct (atan_mvt_lt t t' L) as (c & E & B). exists c. split; [exact E|]. rewrite Rmin_left, Rmax_right by lra. lra.
  - assert (L' : t' < t) by lra. destruct (atan_mvt_lt t' t L') as (c & E & B). exists c. split; [lra|]. rewrite Rmin_right, Rmax_left by lra. lra.
Qed.

Lemma atan_rel d t t' : 0 <= d <= 1 / 2 -> rel d t t' -> Rabs (atan t' - atan t) <= d.
Proof.
  intros Hd H.
  assert (MV : exists c, atan t' - atan t = / (1 + c * c) * (t' - t) /\ (Rmin t t' <= c <= Rmax t t')).
  { destruct (Req_dec t t') as [->|N].
    - exists t'. split; [ring|]. rewrite Rmin_left, Rmax_left by lra. lra.
    - destruct (MVT_abs_pair t t' N) as (c & E & B). exists c. split; assumption. }
  destruct MV as (c & -> & B). unfold rel in H.
  assert (C : Rabs t / 2 <= Rabs c).
  { pose proof (abs_le_inv _ _ H) as I. unfold Rmin, Rmax in B. destruct (Rle_dec t t').
    - destruct (Rle_lt_dec 0 t); [rewrite (Rabs_right t), (Rabs_right c) by lra; lra|].
      rewrite (Rabs_left t) in * by lra. assert (c <= t / 2) by nra. rewrite Rabs_left by lra. lra.
    - destruct (Rle_lt_dec t 0); [rewrite (Rabs_left1 t), (Rabs_left1 c) by lra; lra|].
      rewrite (Rabs_right t) in * by lra. assert (t / 2 <= c) by nra. rewrite Rabs_right by lra. lra. }
  rewrite Rabs_mult, Rabs_right by (apply Rle_ge, Rlt_le, Rinv_0_lt_compat; nra).
  assert (CC : 0 < 1 + c * c) by nra. apply Rmult_le_reg_l with (1 + c * c); [exact CC|].
  rewrite <- Rmult_assoc, Rinv_r, Rmult_1_l by lra.
  assert (Q : c * c = Rabs c * Rabs c) by (rewrite <- Rabs_mult, Rabs_right; [reflexivity|nra]).
  pose proof (Rabs_pos t) as T0.
  assert (K : Rabs t <= 1 + c * c).
  { rewrite Q. assert (Rabs t / 2 * (Rabs t / 2) <= Rabs c * Rabs c) by (apply Rmult_le_compat; lra).
    pose proof (Rle_0_sqr (Rabs t / 2 - 1)) as SQ. unfold Rsqr in SQ. lra. }
  apply Rle_trans with (d * Rabs t); [exact H|]. rewrite (Rmult_comm _ d). apply Rmult_le_compat_l; lra.
Qed.

Lemma rel_sign e x y : e < 1 -> rel e x y -> (0 < x -> 0 < y) /\ (x < 0 -> y < 0) /\ (x = 0 -> y = 0).
Proof.
  intros He H. pose proof (abs_le_inv _ _ H) as I. repeat split; intros Hx.
  - rewrite (Rabs_right x) in I by lra. nra.
  - rewrite (Rabs_left x) in I by lra. nra.
  - subst x. rewrite Rabs_R0 in I. lra.
Qed.

Lemma rel_quot e x y x' y' : 0 <= e <= 1 / 10 -> x <> 0 -> rel e x x' -> rel e y y' -> rel (4 * e) (y / x) (y' / x').
Proof.
  intros He Hx H K. pose proof (rel_inv e x x' ltac:(lra) Hx H) as I. pose proof (rel_abs _ _ _ I) as J. unfold rel in *. unfold Rdiv.
  replace (y' * / x' - y * / x) with ((y' - y) * / x' + y * (/ x' - / x)) by ring.
  eapply Rle_trans; [apply Rabs_triang|]. rewrite !Rabs_mult.
  pose proof (Rabs_pos (/ x')). pose proof (Rabs_pos (/ x)). pose proof (Rabs_pos y). pose proof (Rabs_pos (y' - y)).
  assert (A : Rabs (y' - y) * Rabs (/ x') <= e * Rabs y * ((1 + 2 * e) * Rabs (/ x))) by (apply Rmult_le_compat; assumption).
  assert (B : Rabs y * Rabs (/ x' - / x) <= Rabs y * (2 * e * Rabs (/ x))) by (apply Rmult_le_compat_l; assumption).
  assert (0 <= e * (Rabs y * Rabs (/ x))) by (apply Rmult_le_pos; [lra|apply Rmult_le_pos; assumption]).
  assert (e * (e * (Rabs y * Rabs (/ x))) <= 1 / 10 * (e * (Rabs y * Rabs (/ x)))) by (apply Rmult_le_compat_r; lra).
  lra.
Qed.

Lemma atan2_near e x y x' y' : 0 <= e <= 1 / 10 -> rel e x x' -> rel e y y' -> Rabs (atan2 y' x' - atan2 y x) <= 4 * e.
Proof.
  intros He H K. destruct (rel_sign e x x' ltac:(lra) H) as (X1 & X2 & X3). destruct (rel_sign e y y' ltac:(lra) K) as (Y1 & Y2 & Y3).
  unfold atan2. destruct (Rtotal_order x 0) as [L|[E|G]].
  - pose proof (X2 L). repeat (destruct Rlt_dec; try lra).
    pose proof (atan_rel (4 * e) _ _ ltac:(lra) (rel_quot e x y x' y' He ltac:(lra) H K)) as A.
    destruct (Rtotal_order y 0) as [Ly|[Ey|Gy]].
    + specialize (Y2 Ly). repeat (destruct Rle_dec; try lra). replace (_ - PI - (_ - PI)) with (atan (y' / x') - atan (y / x)) by ring. exact A.
    + specialize (Y3 Ey). repeat (destruct Rle_dec; try lra). replace (_ + PI - (_ + PI)) with (atan (y' / x') - atan (y / x)) by ring. exact A.
    + specialize (Y1 Gy). repeat (destruct Rle_dec; try lra). replace (_ + PI - (_ + PI)) with (atan (y' / x') - atan (y / x)) by ring. exact A.
  - rewrite (X3 E). subst x. destruct (Rlt_dec 0 0); [lra|]. destruct (Rtotal_order y 0) as [Ly|[Ey|Gy]].
    + specialize (Y2 Ly). repeat (destruct Rlt_dec; try lra). rewrite Rminus_diag_eq, Rabs_R0 by reflexivity. lra.
    + specialize (Y3 Ey). subst y y'. repeat (destruct Rlt_dec; try lra). rewrite Rminus_0_r, Rabs_R0. lra.
    + specialize (Y1 Gy). repeat (destruct Rlt_dec; try lra). rewrite Rminus_diag_eq, Rabs_R0 by reflexivity. lra.
  - pose proof (X1 G). repeat (destruct Rlt_dec; try lra).
    exact (atan_rel (4 * e) _ _ ltac:(lra) (rel_quot e x y x' y' He ltac:(lra) H K)).
Qed.

(* ---- the angles in radians ---- *)
Section Precision.
Variable p : Z.
Hypothesis Hp : (24 <= p <= 53)%Z.
Notation u := (powerRZ 2 (- p)).

Lemma u_bound : 0 < u <= 1 / 16777216.
Proof. apply unit_24. lia. Qed.

Lemma u_53 : powerRZ 2 (- 53) <= u.
Proof. apply two_z_le. lia. Qed.

Lemma PI_lower : 3 <= PI.
Proof. pose proof PI2_3_2. lra. Qed.

Lemma dist_2d_rel ut bs : rel (9 * u) (dist_2d ut bs) (dist_2d_fp p ut bs).
Proof.
  pose proof u_bound as U. unfold dist_2d, dist_2d_fp, delta_fp. cbn [vx vy].
  assert (S : forall x, rel (5 * u) (sq x) (rnd p (sq (rnd p x)))).
  { intros x. replace 5 with (3 + 2) by ring. apply rel_then; [lra|lra|]. apply rel_sq; [lra|]. apply rel_rnd. }
  assert (P : forall x, 0 <= sq x) by (intros x; apply Rle_0_sqr).
  pose proof (rel_plus (5 * u) _ _ _ _ (P (vx ut - vx bs)) (P (vy ut - vy bs)) (S _) (S _)) as A.
  pose proof (rel_then p 5 _ _ ltac:(lra) ltac:(lra) A) as B. replace (5 + 2) with 7 in B by ring.
  assert (N : 0 <= sq (vx ut - vx bs) + sq (vy ut - vy bs)) by (apply Rplus_le_le_0_compat; apply P).
  pose proof (rel_sqrt (7 * u) _ _ ltac:(lra) N B) as C.
  pose proof (rel_then p 7 _ _ ltac:(lra) ltac:(lra) C) as D. replace (7 + 2) with 9 in D by ring. exact D.
Qed.

Lemma rnd_near x y e m : Rabs (y - x) <= e -> Rabs y <= m -> Rabs (rnd p y - x) <= e + m * u.
Proof.
  intros H M. pose proof u_bound as U. pose proof (rel_rnd p y) as R. unfold rel in R.
  pose proof (Rabs_triang (rnd p y - y) (y - x)) as T. replace (rnd p y - y + (y - x)) with (rnd p y - x) in T by ring. nra.
Qed.

Lemma atan2_abs y x : Rabs (atan2 y x) <= 3.2.
Proof. pose proof (atan2_range y x). pose proof PI_upper. apply Rabs_le. lra. Qed.

Lemma aod_rad_near ut bs : Rabs (aod_rad_fp p ut bs - atan2 (vy ut - vy bs) (vx ut - vx bs)) <= 8 * u.
Proof.
  pose proof u_bound as U. unfold aod_rad_fp, delta_fp. cbn [vx vy].
  pose proof (atan2_near u _ _ _ _ ltac:(lra) (rel_rnd p (vx ut - vx bs)) (rel_rnd p (vy ut - vy bs))) as A.
  pose proof (rnd_near _ _ _ _ A (atan2_abs _ _)). lra.
Qed.

Lemma zod_rad_near ut bs : Rabs (zod_rad_fp p ut bs - atan2 (dist_2d ut bs) (vz ut - vz bs)) <= 40 * u.
Proof.
  pose proof u_bound as U. unfold zod_rad_fp, delta_fp. cbn [vz].
  pose proof (atan2_near (9 * u) _ _ _ _ ltac:(lra) (rel_weaken u (9 * u) _ _ ltac:(lra) (rel_rnd p (vz ut - vz bs))) (dist_2d_rel ut bs)) as A.
  pose proof (rnd_near _ _ _ _ A (atan2_abs _ _)). lra.
Qed.

Lemma rel_53 x : rel (1 * u) x (rnd 53 x).
Proof. rewrite Rmult_1_l. exact (rel_weaken _ _ _ _ u_53 (rel_rnd 53 x)). Qed.

Lemma pi_near : Rabs (pi_fp p - PI) <= 10 * u.
Proof.
  pose proof u_bound as U. pose proof (rel_then p 1 _ _ ltac:(lra) ltac:(lra) (rel_53 PI)) as A. unfold pi_fp, rel in *.
  pose proof PI_upper. pose proof PI_lower. rewrite (Rabs_right PI) in A by lra. nra.
Qed.

Lemma aoa_rad_near ut bs : Rabs (rnd p (aod_rad_fp p ut bs + pi_fp p) - (atan2 (vy ut - vy bs) (vx ut - vx bs) + PI)) <= 25 * u.
Proof.
  pose proof u_bound as U. pose proof (aod_rad_near ut bs) as A. pose proof pi_near as B.
  set (a := atan2 _ _) in *. set (a' := aod_rad_fp p ut bs) in *.
  assert (C : Rabs (a' + pi_fp p - (a + PI)) <= 18 * u).
  { pose proof (Rabs_triang (a' - a) (pi_fp p - PI)) as T. replace (a' - a + (pi_fp p - PI)) with (a' + pi_fp p - (a + PI)) in T by ring. lra. }
  assert (M : Rabs (a' + pi_fp p) <= 6.5).
  { pose proof (atan2_abs (vy ut - vy bs) (vx ut - vx bs)) as E. fold a in E. apply abs_le_inv in E. apply abs_le_inv in C.
    pose proof PI_upper. pose proof PI_lower. apply Rabs_le. lra. }
  pose proof (rnd_near _ _ _ _ C M). lra.
Qed.

Lemma zoa_rad_near ut bs : Rabs (rnd p (zod_rad_fp p ut bs - pi_fp p) - (atan2 (dist_2d ut bs) (vz ut - vz bs) - PI)) <= 57 * u.
Proof.
  pose proof u_bound as U. pose proof (zod_rad_near ut bs) as A. pose proof pi_near as B.
  set (a := atan2 _ _) in *. set (a' := zod_rad_fp p ut bs) in *.
  assert (C : Rabs (a' - pi_fp p - (a - PI)) <= 50 * u).
  { rewrite Rabs_minus_sym in B. pose proof (Rabs_triang (a' - a) (PI - pi_fp p)) as T.
    replace (a' - a + (PI - pi_fp p)) with (a' - pi_fp p - (a - PI)) in T by ring. lra. }
  assert (M : Rabs (a' - pi_fp p) <= 6.5).
  { pose proof (atan2_abs (dist_2d ut bs) (vz ut - vz bs)) as E. fold a in E. apply abs_le_inv in E. apply abs_le_inv in C.
    pose proof PI_upper. pose proof PI_lower. apply Rabs_le. lra. }
  pose proof (rnd_near _ _ _ _ C M). lra.
Qed.

(* ---- degrees ---- *)
Lemma deg_const : rel (6 * u) (180 / PI) (rnd p (rnd 53 (180 / rnd 53 PI))).
Proof.
  pose proof u_bound as U. pose proof u_53 as U53. pose proof (two_z_pos (- 53)) as P53. pose proof PI_lower.
  pose proof (rel_inv (1 * u) PI (rnd 53 PI) ltac:(lra) ltac:(lra) (rel_53 PI)) as I.
  assert (J : rel (2 * u) (180 / PI) (180 / rnd 53 PI)).
  { unfold rel, Rdiv in *. rewrite <- Rmult_minus_distr_l, !Rabs_mult, (Rabs_right 180) by lra. lra. }
  assert (K : rel (4 * u) (180 / PI) (rnd 53 (180 / rnd 53 PI))).
  { assert (2 * u * powerRZ 2 (- 53) <= 1 * powerRZ 2 (- 53)) by (apply Rmult_le_compat_r; lra).
    refine (rel_weaken _ _ _ _ _ (rel_trans _ _ _ _ _ _ J (rel_rnd 53 _))); change (- (53))%Z with (-53)%Z; lra. }
  pose proof (rel_then p 4 _ _ ltac:(lra) ltac:(lra) K) as L. replace (4 + 2) with 6 in L by ring. exact L.
Qed.

Lemma deg_near x x' : Rabs (x' - x) <= 57 * u -> Rabs x <= 6.4 -> Rabs (rad_2_deg_fp p x' - rad_2_deg x) <= 6200 * u /\ Rabs (rad_2_deg_fp p x') < 400.
Proof.
  intros H X. pose proof u_bound as U. pose proof deg_const as D. pose proof (rel_abs _ _ _ D) as D'. unfold rad_2_deg_fp, rad_2_deg.
  set (c' := rnd p (rnd 53 _)) in *. set (c := 180 / PI) in *. unfold rel in D.
  assert (C : 0 < c <= 60).
  { pose proof PI_lower. unfold c. split; [apply Rdiv_lt_0_compat; lra|]. apply Rmult_le_reg_r with PI; [lra|]. unfold Rdiv. rewrite Rmult_assoc, Rinv_l by lra. lra. }
  rewrite (Rabs_right c) in D, D' by lra.
  assert (X' : Rabs x' <= 6.5).
  { pose proof (Rabs_triang (x' - x) x) as T. replace (x' - x + x) with x' in T by ring. lra. }
  assert (C' : Rabs c' <= 60.1) by nra.
  assert (DC : Rabs (c' - c) <= 360 * u) by nra.
  assert (M : Rabs (x' * c') <= 391) by (rewrite Rabs_mult; pose proof (Rabs_pos x'); pose proof (Rabs_pos c'); nra).
  assert (E : Rabs (x' * c' - x * c) <= 5760 * u).
  { replace (x' * c' - x * c) with (x' * (c' - c) + (x' - x) * c) by ring. eapply Rle_trans; [apply Rabs_triang|].
    rewrite !Rabs_mult, (Rabs_right c) by lra. pose proof (Rabs_pos x'). pose proof (Rabs_pos (c' - c)). pose proof (Rabs_pos (x' - x)).
    assert (Rabs x' * Rabs (c' - c) <= 6.5 * (360 * u)) by (apply Rmult_le_compat; lra).
    assert (Rabs (x' - x) * c <= 57 * u * 60) by (apply Rmult_le_compat; lra). lra. }
  split.
  - pose proof (rnd_near _ _ _ _ E M). lra.
  - pose proof (rel_abs _ _ _ (rel_rnd p (x' * c'))). nra.
Qed.

(* ---- the wrap ---- *)
Lemma rem_spec x : exists k : Z, rem x 360 = x + 360 * IZR k /\ - 360 < rem x 360 < 360.
Proof.
  unfold rem. destruct (Rlt_dec (x / 360) 0) as [L|L].
  - destruct (floor_bounds (- (x / 360))). exists (Int_part (- (x / 360))). split; [ring|].
lra.
  - destruct (floor_bounds (x / 360)). exists (- Int_part (x / 360))%Z. rewrite opp_IZR. split; [ring|]. lra.
Qed.
Lemma wrap_near x : exists k : Z, Rabs (wrap_fp p x - (x + 360 * IZR k)) <= 360 * u.
Proof.
  pose proof u_bound as U. destruct (rem_spec x) as (k & E & B). unfold wrap_fp. destruct (Rlt_dec (rem x 360) 0) as [L|L].
  - exists (k + 1)%Z. rewrite plus_IZR. replace (x + 360 * (IZR k + 1)) with (rem x 360 + 360) by (rewrite E; ring).
    pose proof (rel_rnd p (rem x 360 + 360)) as R. unfold rel in R. rewrite (Rabs_right (_ + _)) in R by lra. nra.
  - exists k. rewrite E, Rminus_diag_eq, Rabs_R0 by reflexivity. lra.
Qed.

Lemma unit_360 : powerRZ 2 (8 - (p - 1)) * IZR (360 * 2 ^ (p - 9)) = 360 /\ powerRZ 2 (8 - (p - 1)) = 512 * u.
Proof.
  split.
  - rewrite mult_IZR, <- two_z_nonneg by lia. replace (powerRZ 2 (8 - (p - 1)) * (360 * powerRZ 2 (p - 9))) with (360 * (powerRZ 2 (8 - (p - 1)) * powerRZ 2 (p - 9))) by ring.
    rewrite <- two_z_add. replace (8 - (p - 1) + (p - 9))%Z with 0%Z by lia. simpl. ring.
  - replace (8 - (p - 1))%Z with (9 + - p)%Z by lia. rewrite two_z_add, (two_z_nonneg 9) by lia. reflexivity.
Qed.

Lemma mag_8 x : 256 <= x < 512 -> mag x = 8%Z.
Proof. intros H. apply mag_unique. rewrite !two_z_nonneg by lia. change (2 ^ 8)%Z with 256%Z. change (2 ^ (8 + 1))%Z with 512%Z. exact H. Qed.

(* rounding does not cross 360 *)
Lemma rnd_le_360 x : 0 < x <= 360 -> rnd p x <= 360.
Proof.
  intros H. pose proof u_bound as U. destruct (Rlt_le_dec x 256) as [L|L].
  - pose proof (rel_rnd p x) as R. apply rel_abs in R. rewrite (Rabs_right x) in R by lra. pose proof (Rle_abs (rnd p x)). nra.
  - rewrite rnd_pos_eq by lra. unfold ulp. rewrite (mag_8 x) by lra. destruct unit_360 as [E _].
    set (v := powerRZ 2 (8 - (p - 1))) in *. set (n := (360 * 2 ^ (p - 9))%Z) in *. assert (V : 0 < v) by apply two_z_pos.
    pose proof (nearest_err (x / v)) as N. apply abs_le_inv in N.
    assert (Q : x / v <= IZR n). { apply Rmult_le_reg_r with v; [exact V|]. unfold Rdiv. rewrite Rmult_assoc, Rinv_l by lra. lra. }
    assert (K : (nearest_int (x / v) <= n)%Z). { assert ((nearest_int (x / v) < n + 1)%Z) by (apply lt_IZR; rewrite plus_IZR; lra). lia. }
    apply IZR_le in K. rewrite <- E, Rmult_comm. apply Rmult_le_compat_l; lra.
Qed.

(* close below 360 it reaches 360 *)
Lemma rnd_is_360 v : - (256 * u) < v <= 0 -> rnd p (360 + v) = 360.
Proof.
  intros H. pose proof u_bound as U. rewrite rnd_pos_eq by lra. unfold ulp. rewrite (mag_8 (360 + v)) by lra. destruct unit_360 as [E F].
  rewrite (nearest_unique _ (360 * 2 ^ (p - 9))); [rewrite Rmult_comm; exact E|].
  rewrite F in *. replace ((360 + v) / (512 * u) - IZR (360 * 2 ^ (p - 9))) with (v / (512 * u)).
  - assert (G : - (1 / 2) < v / (512 * u)).
    { apply Rmult_lt_reg_r with (512 * u); [lra|]. unfold Rdiv. rewrite Rmult_assoc, Rinv_l by lra. lra. }
    assert (G' : v / (512 * u) <= 0).
    { apply Rmult_le_reg_r with (512 * u); [lra|]. unfold Rdiv. rewrite Rmult_assoc, Rinv_l by lra. lra. }
    apply Rabs_def1; lra.
  - rewrite <- E at 1. field. lra.
Qed.

Lemma wrap_fp_range x : 0 <= wrap_fp p x <= 360.
Proof.
  destruct (rem_spec x) as (k & E & B). unfold wrap_fp. destruct (Rlt_dec (rem x 360) 0) as [L|L]; [|lra].
  split; [apply rnd_nonneg; lra || lia|]. apply rnd_le_360. lra.
Qed.

(* ---- the four angles ---- *)
Lemma degrees x x' : Rabs (x' - x) <= 57 * u -> Rabs x <= 6.4 ->
  0 <= wrap_fp p (rad_2_deg_fp p x') <= 360 /\
  exists k : Z, Rabs (wrap_fp p (rad_2_deg_fp p x') - (wrap_angle_0_360 (rad_2_deg x) + 360 * IZR k)) <= 7000 * u.
Proof.
  intros H X. split; [apply wrap_fp_range|]. pose proof u_bound as U. destruct (deg_near x x' H X) as [D _].
  destruct (wrap_near (rad_2_deg_fp p x')) as [k W]. unfold wrap_angle_0_360. destruct (fmod_congr (rad_2_deg x) 360) as [j ->].
  exists (k + j)%Z. rewrite plus_IZR. set (y' := rad_2_deg_fp p x') in *. set (y := rad_2_deg x) in *.
  pose proof (Rabs_triang (wrap_fp p y' - (y' + 360 * IZR k)) (y' - y)) as T.
  replace (wrap_fp p y' - (y' + 360 * IZR k) + (y' - y)) with (wrap_fp p y' - (y - 360 * IZR j + 360 * (IZR k + IZR j))) in T by ring. lra.
Qed.

Lemma C105_angles_s ut bs :
  (0 <= los_aod_fp p ut bs <= 360 /\ exists k : Z, Rabs (los_aod_fp p ut bs - (los_aod ut bs + 360 * IZR k)) <= 7000 * u) /\
  (0 <= los_aoa_fp p ut bs <= 360 /\ exists k : Z, Rabs (los_aoa_fp p ut bs - (los_aoa ut bs + 360 * IZR k)) <= 7000 * u) /\
  (0 <= los_zod_fp p ut bs <= 360 /\ exists k : Z, Rabs (los_zod_fp p ut bs - (los_zod ut bs + 360 * IZR k)) <= 7000 * u) /\
  (0 <= los_zoa_fp p ut bs <= 360 /\ exists k : Z, Rabs (los_zoa_fp p ut bs - (los_zoa ut bs + 360 * IZR k)) <= 7000 * u).
Proof.
  pose proof u_bound as U. pose proof PI_upper. pose proof PI_lower.
  pose proof (atan2_abs (vy ut - vy bs) (vx ut - vx bs)) as A. pose proof (atan2_abs (dist_2d ut bs) (vz ut - vz bs)) as Z.
  pose proof (abs_le_inv _ _ A). pose proof (abs_le_inv _ _ Z).
  pose proof (aod_rad_near ut bs). pose proof (aoa_rad_near ut bs). pose proof (zod_rad_near ut bs). pose proof (zoa_rad_near ut bs).
  split; [|split; [|split]]; apply degrees; try lra; apply Rabs_le; lra.
Qed.

Lemma direction_near z a z' a' e : (exists k : Z, Rabs (z' - (z + 360 * IZR k)) <= e) -> (exists k : Z, Rabs (a' - (a + 360 * IZR k)) <= e) ->
  let d := direction z a in let d' := direction z' a' in
  Rabs (vx d' - vx d) <= e / 28 /\ Rabs (vy d' - vy d) <= e / 28 /\ Rabs (vz d' - vz d) <= e / 28.
Proof.
  intros [k Hz] [j Ha]. cbv zeta. unfold direction. cbn [vx vy vz].
  assert (R : forall x y (m : Z), Rabs (y - (x + 360 * IZR m)) <= e ->
    Rabs (cos (deg_2_rad y) - cos (deg_2_rad x)) <= e / 56 /\ Rabs (sin (deg_2_rad y) - sin (deg_2_rad x)) <= e / 56).
  { intros x y m H. rewrite <- (cos_period_Z (deg_2_rad x) m), <- (sin_period_Z (deg_2_rad x) m).
    assert (L : Rabs (deg_2_rad y - (deg_2_rad x + 2 * IZR m * PI)) <= e / 56).
    { replace (deg_2_rad y - (deg_2_rad x + 2 * IZR m * PI)) with ((y - (x + 360 * IZR m)) * (PI / 180)) by (unfold deg_2_rad; field).
      pose proof PI_upper. pose proof PI_lower. rewrite Rabs_mult, (Rabs_right (PI / 180)) by lra. pose proof (Rabs_pos (y - (x + 360 * IZR m))). nra. }
    destruct (cos_sin_lip (deg_2_rad y) (deg_2_rad x + 2 * IZR m * PI)). lra. }
  destruct (R _ _ _ Hz) as [Cz Sz]. destruct (R _ _ _ Ha) as [Ca Sa].
  assert (P : forall s s' c c', Rabs (s' - s) <= e / 56 -> Rabs (c' - c) <= e / 56 -> Rabs s' <= 1 -> Rabs c <= 1 -> Rabs (s' * c' - s * c) <= e / 28).
  { intros s s' c c' H K A B. replace (s' * c' - s * c) with (s' * (c' - c) + (s' - s) * c) by ring.
    eapply Rle_trans; [apply Rabs_triang|]. rewrite !Rabs_mult.
    pose proof (Rabs_pos s'). pose proof (Rabs_pos c). pose proof (Rabs_pos (c' - c)). pose proof (Rabs_pos (s' - s)). nra. }
  assert (Q : forall x, Rabs (sin x) <= 1 /\ Rabs (cos x) <= 1) by (intros x; split; apply Rabs_le; [apply SIN_bound|apply COS_bound]).
  pose proof (Rabs_pos (z' - (z + 360 * IZR k))).
  split; [|split]; [apply P; try assumption; apply Q | apply P; try assumption; apply Q | lra].
Qed.

Lemma C105_direction_s ut bs :
  let d := vnorm (vsub ut bs) in
  let r := direction (los_zod_fp p ut bs) (los_aod_fp p ut bs) in
  Rabs (d * vx r - (vx ut - vx bs)) <= 250 * u * d /\
  Rabs (d * vy r - (vy ut - vy bs)) <= 250 * u * d /\
  Rabs (d * vz r - (vz ut - vz bs)) <= 250 * u * d.
Proof.
  intros d r. destruct (C105_angles_s ut bs) as ((_ & A) & _ & (_ & Z) & _).
  destruct (direction_near _ _ _ _ _ Z A) as (X & Y & W). fold r in X, Y, W.
  pose proof (departure_direction ut bs) as D. fold d in D. unfold vscale, vsub in D. injection D as D1 D2 D3.
  assert (N : 0 <= d) by apply sqrt_pos.
  assert (K : forall a b t, d * b = t -> Rabs (a - b) <= 7000 * u / 28 -> Rabs (d * a - t) <= 250 * u * d).
  { intros a b t <- H. rewrite <- Rmult_minus_distr_l, Rabs_mult, (Rabs_right d) by lra. nra. }
  split; [|split]; eapply K; eassumption.
Qed.

(* an azimuth just below the positive x axis is reported as 360 *)
Lemma C105_full_turn_s ut bs : vx bs < vx ut -> - (3 * u * (vx ut - vx bs)) <= vy ut - vy bs < 0 -> los_aod_fp p ut bs = 360.
Proof.
  intros HX HY. pose proof u_bound as U. set (dx := vx ut - vx bs) in *. set (dy := vy ut - vy bs) in *. assert (X : 0 < dx) by (unfold dx; lra).
  unfold los_aod_fp, aod_rad_fp, delta_fp. cbn [vx vy]. fold dx. fold dy.
  assert (T : - (3 * u) <= dy / dx < 0).
  { split; [apply Rmult_le_reg_r with dx | apply Rmult_lt_reg_r with dx]; try exact X; unfold Rdiv; rewrite Rmult_assoc, Rinv_l by lra; lra. }
  pose proof (rel_quot u dx dy (rnd p dx) (rnd p dy) ltac:(lra) ltac:(lra) (rel_rnd p dx) (rel_rnd p dy)) as Q.
  assert (X' : 0 < rnd p dx) by (apply (rel_sign u dx (rnd p dx)); [lra|apply rel_rnd|exact X]).
  unfold atan2. destruct (Rlt_dec 0 (rnd p dx)) as [_|N]; [|lra].
  set (t := dy / dx) in *. set (t' := rnd p dy / rnd p dx) in *.
  assert (T' : - (3.1 * u) <= t' < 0).
  { split; [|apply (rel_sign (4 * u) t t'); [lra|exact Q|lra]]. unfold rel in Q. rewrite (Rabs_left t) in Q by lra. apply abs_le_inv in Q. nra. }
  assert (A : - (3.1 * u) <= atan t' < 0).
  { destruct (atan_mvt_lt t' 0 ltac:(lra)) as (c & E & B). rewrite atan_0 in E.
    assert (I : 0 < / (1 + c * c) <= 1).
    { pose proof (Rle_0_sqr c) as SC. unfold Rsqr in SC. split; [apply Rinv_0_lt_compat; lra|]. rewrite <- Rinv_1. apply Rinv_le_contravar; lra. }
    nra. }
  set (a := atan t') in *. pose proof (rel_rnd p a) as R.
  assert (R' : - (3.2 * u) <= rnd p a < 0).
  { split; [|apply (rel_sign u a (rnd p a)); [lra|exact R|lra]]. unfold rel in R. rewrite (Rabs_left a) in R by lra. apply abs_le_inv in R. nra. }
  set (a' := rnd p a) in *. unfold rad_2_deg_fp. pose proof deg_const as D. set (c' := rnd p (rnd 53 _)) in *.
  assert (C : 0 < 180 / PI <= 60).
  { pose proof PI_lower. split; [apply Rdiv_lt_0_compat; lra|]. apply Rmult_le_reg_r with PI; [lra|]. unfold Rdiv. rewrite Rmult_assoc, Rinv_l by lra. lra. }
  assert (C' : 0 < c' <= 61).
  { split; [apply (rel_sign (6 * u) (180 / PI) c'); [lra|exact D|lra]|]. apply rel_abs in D. rewrite (Rabs_right (180 / PI)) in D by lra.
    pose proof (Rle_abs c'). nra. }
  assert (V : - (200 * u) <= a' * c' < 0) by nra.
  pose proof (rel_rnd p (a' * c')) as W.
  assert (V' : - (210 * u) <= rnd p (a' * c') < 0).
  { split; [|apply (rel_sign u (a' * c') (rnd p (a' * c'))); [lra|exact W|lra]]. unfold rel in W. rewrite (Rabs_left (a' * c')) in W by lra. apply abs_le_inv in W. nra. }
  set (v := rnd p (a' * c')) in *. unfold wrap_fp.
  assert (E : rem v 360 = v).
  { unfold rem. destruct (Rlt_dec (v / 360) 0) as [_|N]; [|lra]. rewrite (floor_unique (- (v / 360)) 0); [ring|]. lra. }
  rewrite E. destruct (Rlt_dec v 0) as [_|N]; [|lra]. rewrite Rplus_comm. apply rnd_is_360. lra.
Qed.
End Precision.

Lemma C105_angles_l : forall p ut bs, (24 <= p <= 53)%Z ->
  (0 <= los_aod_fp p ut bs <= 360 /\ exists k : Z, Rabs (los_aod_fp p ut bs - (los_aod ut bs + 360 * IZR k)) <= 7000 * powerRZ 2 (- p)) /\
  (0 <= los_aoa_fp p ut bs <= 360 /\ exists k : Z, Rabs (los_aoa_fp p ut bs - (los_aoa ut bs + 360 * IZR k)) <= 7000 * powerRZ 2 (- p)) /\
  (0 <= los_zod_fp p ut bs <= 360 /\ exists k : Z, Rabs (los_zod_fp p ut bs - (los_zod ut bs + 360 * IZR k)) <= 7000 * powerRZ 2 (- p)) /\
  (0 <= los_zoa_fp p ut bs <= 360 /\ exists k : Z, Rabs (los_zoa_fp p ut bs - (los_zoa ut bs + 360 * IZR k)) <= 7000 * powerRZ 2 (- p)).
Proof. intros p ut bs Hp. exact (C105_angles_s p Hp ut bs). Qed.

Lemma C105_direction_l : forall p ut bs, (24 <= p <= 53)%Z ->
  let d := vnorm (vsub ut bs) in
  let r := direction (los_zod_fp p ut bs) (los_aod_fp p ut bs) in
  Rabs (d * vx r - (vx ut - vx bs)) <= 250 * powerRZ 2 (- p) * d /\
  Rabs (d * vy r - (vy ut - vy bs)) <= 250 * powerRZ 2 (- p) * d /\
  Rabs (d * vz r - (vz ut - vz bs)) <= 250 * powerRZ 2 (- p) * d.
Proof. intros p ut bs Hp. exact (C105_direction_s p Hp ut bs). Qed.

Lemma C105_range_refuted_l : forall p ut bs, (24 <= p <= 53)%Z -> vx bs < vx ut ->
  - (3 * powerRZ 2 (- p) * (vx ut - vx bs)) <= vy ut - vy bs < 0 ->
  los_aod_fp p ut bs = 360 /\ 0 <= los_aod ut bs < 360.
Proof. intros p ut bs Hp HX HY. split; [exact (C105_full_turn_s p Hp ut bs HX HY)|]. apply los_angles_range. Qed.

(* in single precision: a thousandth of a degree, and 1.5 centimetres per kilometre *)
Lemma C105_single_l : 7000 * powerRZ 2 (- 24) <= 1 / 1000 /\ 250 * powerRZ 2 (- 24) <= 1.5 / 10 ^ 5 /\
  let ut := V3 600000 (- (1 / 16)) 1.5 in let bs := V3 0 0 600000 in
  vx bs < vx ut /\ - (3 * powerRZ 2 (- 24) * (vx ut - vx bs)) <= vy ut - vy bs < 0 /\ los_aod_fp 24 ut bs = 360.
Proof.
  assert (E : powerRZ 2 (- 24) = 1 / 16777216) by (simpl; lra). rewrite E. split; [lra|]. split; [lra|]. cbv zeta.
  assert (A : vx (V3 0 0 600000) < vx (V3 600000 (- (1 / 16)) 1.5)) by (cbn [vx]; lra).
  assert (B : - (3 * (1 / 16777216) * (vx (V3 600000 (- (1 / 16)) 1.5) - vx (V3 0 0 600000))) <= vy (V3 600000 (- (1 / 16)) 1.5) - vy (V3 0 0 600000) < 0)
    by (cbn [vx vy]; lra).
  split; [exact A|]. split; [exact B|]. rewrite <- E in B. exact (proj1 (C105_range_refuted_l 24 _ _ ltac:(lia) A B)).
Qed.

(* the angles do depend on the position: opposite azimuths of departure in single precision *)
Lemma C105_example_l : Rabs (los_aod_fp 24 (V3 3000 0 1.5) (V3 0 0 600000) - los_aod_fp 24 (V3 (- 3000) 0 1.5) (V3 0 0 600000)) >= 179.
Proof.
  destruct (C105_angles_s 24 ltac:(lia) (V3 3000 0 1.5) (V3 0 0 600000)) as ((R1 & k1 & A1) & _).
  destruct (C105_angles_s 24 ltac:(lia) (V3 (- 3000) 0 1.5) (V3 0 0 600000)) as ((R2 & k2 & A2) & _).
  assert (E : powerRZ 2 (Z.opp 24) = 1 / 16777216) by (simpl; lra). rewrite E in A1, A2.
  assert (P1 : los_aod (V3 3000 0 1.5) (V3 0 0 600000) = 0).
  { unfold los_aod, atan2. cbn [vx vy]. destruct (Rlt_dec 0 (3000 - 0)); [|lra]. replace ((0 - 0) / (3000 - 0)) with 0 by (field; lra).
    rewrite atan_0. unfold rad_2_deg, wrap_angle_0_360. rewrite Rmult_0_l. apply fmod_id. lra. }
  assert (P2 : los_aod (V3 (- 3000) 0 1.5) (V3 0 0 600000) = 180).
  { unfold los_aod, atan2. cbn [vx vy]. destruct (Rlt_dec 0 (- 3000 - 0)); [lra|]. destruct (Rlt_dec (- 3000 - 0) 0); [|lra].
    destruct (Rle_dec 0 (0 - 0)); [|lra]. replace ((0 - 0) / (- 3000 - 0)) with 0 by (field; lra).
    rewrite atan_0, Rplus_0_l. unfold rad_2_deg, wrap_angle_0_360. pose proof PI_RGT_0. replace (PI * (180 / PI)) with 180 by (field; lra). apply fmod_id. lra. }
  rewrite P1 in A1. rewrite P2 in A2. apply abs_le_inv in A1. apply abs_le_inv in A2.
  assert (K2 : k2 = 0%Z). { assert (-1 < k2 < 1)%Z by (split; apply lt_IZR; lra). lia. } subst k2.
  assert (K1 : k1 = 0%Z \/ k1 = 1%Z). { assert (-1 < k1 < 2)%Z by (split; apply lt_IZR; lra). lia. }
  apply Rle_ge. destruct K1 as [-> | ->].
  - rewrite Rabs_left1 by lra. lra.
  - rewrite Rabs_right by lra. lra.
Qed.
