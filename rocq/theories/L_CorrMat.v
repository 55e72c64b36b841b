(* Lemmas about the correlation matrices: C53. *)
From Coq Require Import Reals String List Bool Arith Lia Lra ZArith.
From Verif Require Import M_Base L_Base L_Trig M_Geometry M_Cplx L_Coeff M_Convert S_Convert L_Csum L_Convert.
Import ListNotations.
Open Scope R_scope.

(* ---- Hermitian Toeplitz matrices in general ---- *)
Lemma cconj_conj a : cconj (cconj a) = a.
Proof. apply cplx_eq; cbn; ring. Qed.
Lemma cnorm2_conj a : cnorm2 (cconj a) = cnorm2 a.
Proof. unfold cnorm2; cbn; ring. Qed.
Lemma cconj_c1 : cconj c1 = c1.
Proof. apply cplx_eq; cbn; ring. Qed.

Lemma toeplitz_correlation col : col 0%nat = c1 -> (forall k, cnorm2 (col k) <= 1) ->
  correlation_matrix (toeplitz col (fun k => cconj (col k))).
Proof.
  intros C0 C1. unfold correlation_matrix, toeplitz. repeat split; intros.
  - destruct (Nat.leb_spec i j), (Nat.leb_spec j i).
    + replace j with i by lia. rewrite Nat.sub_diag, C0. symmetry. apply cconj_c1.
    + rewrite cconj_conj. reflexivity.
    + reflexivity.
    + lia.
  - rewrite Nat.leb_refl, Nat.sub_diag. exact C0.
  - destruct (Nat.leb_spec j i), (Nat.leb_spec (j + k) (i + k)); try lia; [replace (i + k - (j + k))%nat with (i - j)%nat by lia|replace (j + k - (i + k))%nat with (j - i)%nat by lia]; reflexivity.
  - destruct (Nat.leb j i); [|rewrite cnorm2_conj]; apply C1.
Qed.

Lemma csumN_front n f : csumN (S n) f = cadd (f 0%nat) (csumN n (fun k => f (S k))).
Proof. change (S n) with (1 + n)%nat. rewrite csumN_split, csumN_S, csumN_0. cbn [plus]. ring. Qed.

Lemma form_hermitian n m x : (forall i j, m j i = cconj (m i j)) -> cconj (quadratic_form n m x) = quadratic_form n m x.
Proof.
  intros H. unfold quadratic_form. rewrite csumN_conj.
  rewrite (csumN_ext n _ (fun i => csumN n (fun j => cmul (cmul (cconj (x j)) (m j i)) (x i)))).
  - apply csumN_swap.
  - intros i _. rewrite csumN_conj. apply csumN_ext. intros j _. rewrite (H i j), !cconj_mul, cconj_conj. ring.
Qed.
Lemma form_real n m x : (forall i j, m j i = cconj (m i j)) -> im (quadratic_form n m x) = 0.
Proof. intros H. pose proof (f_equal im (form_hermitian n m x H)) as E. cbn in E. lra. Qed.

(* ---- exponential correlation ---- *)
Lemma is_c0_spec a : is_c0 a = true <-> a = c0.
Proof.
  unfold is_c0. rewrite andb_true_iff, !Reqb_true. split; [intros [A B]; apply cplx_eq; assumption|intros ->; split; reflexivity].
Qed.
Lemma pow_col a k : match tf_pow a k with None => c1 | Some z => z end = cpow a k.
Proof.
  unfold tf_pow. destruct (is_c0 a) eqn:E; [|reflexivity]. apply is_c0_spec in E. subst a.
  destruct k; cbn; [reflexivity|]. ring.
Qed.
Lemma cpow_norm a k : cnorm2 a < 1 -> cnorm2 (cpow a k) <= 1.
Proof.
  intros A. pose proof (cnorm2_nonneg a). induction k as [|k IH]; cbn [cpow]; [unfold cnorm2; cbn; lra|].
  rewrite cnorm2_mul. pose proof (cnorm2_nonneg (cpow a k)). nra.
Qed.

Lemma step_algebra (x0 s a : cplx) e :
  cadd (cadd (cmul (cmul (cconj x0) c1) x0) (cconj (cmul (cmul a s) x0)))
       (cadd (cmul (cmul a s) x0) (creal (cnorm2 s + (1 - cnorm2 a) * e))) =
  creal (cnorm2 (cadd (cconj x0) (cmul a s)) + (1 - cnorm2 a) * (e + cnorm2 s)).
Proof. unfold cnorm2. apply cplx_eq; cbn; ring. Qed.

Section Exp.
Variable a : cplx.
Let col k := match tf_pow a k with None => c1 | Some z => z end.
Let m := toeplitz col (fun k => cconj (col k)).
Let s n (x : nat -> cplx) := csumN n (fun i => cmul (cconj (x i)) (cpow a i)).
Fixpoint rest n (x : nat -> cplx) : R :=
  match n with O => 0 | S k => rest k (fun i => x (S i)) + cnorm2 (s k (fun i => x (S i))) end.

Lemma m_succ i j : m (S i) (S j) = m i j.
Proof. unfold m, toeplitz. reflexivity. Qed.
Lemma m_col i : m i 0%nat = cpow a i.
Proof. unfold m, toeplitz. cbn [Nat.leb]. rewrite Nat.sub_0_r. apply pow_col. Qed.
Lemma m_row j : m 0%nat j = cconj (cpow a j).
Proof.
  unfold m, toeplitz. destruct j; cbn [Nat.leb Nat.sub]; unfold col; rewrite pow_col; [|reflexivity].
  cbn. symmetry. apply cconj_c1.
Qed.
Lemma s_front n x : s (S n) x = cadd (cconj (x 0%nat)) (cmul a (s n (fun i => x (S i)))).
Proof.
  unfold s. rewrite csumN_front. cbn [cpow]. rewrite <- csumN_mul_l. f_equal; [ring|].
  apply csumN_ext. intros; ring.
Qed.
Lemma form_step n x : quadratic_form n m x = creal (cnorm2 (s n x) + (1 - cnorm2 a) * rest n x).
Proof.
  revert x. induction n as [|n IH]; intros x.
  - unfold quadratic_form, s. rewrite !csumN_0. unfold cnorm2; apply cplx_eq; cbn; ring.
  - unfold quadratic_form. rewrite csumN_front, csumN_front.
    rewrite (csumN_ext n (fun k => csumN (S n) _)
       (fun i => cadd (cmul (cmul (cconj (x (S i))) (m (S i) 0%nat)) (x 0%nat))
                      (csumN n (fun j => cmul (cmul (cconj (x (S i))) (m i j)) (x (S j)))))).
    2:{ intros i _. rewrite csumN_front. f_equal. }
    rewrite csumN_add.
    change (csumN n (fun i => csumN n (fun j => cmul (cmul (cconj (x (S i))) (m i j)) (x (S j))))) with
      (quadratic_form n m (fun i => x (S i))). rewrite IH.
    cbn [rest]. rewrite s_front. set (s' := s n (fun i => x (S i))).
    assert (A1 : csumN n (fun i => cmul (cmul (cconj (x (S i))) (m (S i) 0%nat)) (x 0%nat)) = cmul (cmul a s') (x 0%nat)).
    { rewrite csumN_mul_r. f_equal. unfold s', s. rewrite <- csumN_mul_l. apply csumN_ext. intros. rewrite m_col. cbn [cpow]. ring. }
    assert (A2 : csumN n (fun j => cmul (cmul (cconj (x 0%nat)) (m 0%nat (S j))) (x (S j))) = cconj (cmul (cmul a s') (x 0%nat))).
    { rewrite <- A1, csumN_conj. apply csumN_ext. intros. rewrite m_col, m_row, !cconj_mul, cconj_conj. ring. }
    rewrite A1, A2, m_col. apply step_algebra.
Qed.
Lemma rest_nonneg n x : 0 <= rest n x.
Proof.
  revert x. induction n as [|n IH]; intros x; cbn [rest]; [lra|]. pose proof (IH (fun i => x (S i))).
  pose proof (cnorm2_nonneg (s n (fun i => x (S i)))). lra.
Qed.
Lemma form_zero n x : cnorm2 a < 1 -> cnorm2 (s n x) + (1 - cnorm2 a) * rest n x = 0 -> forall i, (i < n)%nat -> x i = c0.
Proof.
  intros A. revert x. induction n as [|n IH]; intros x E i Hi; [lia|].
  pose proof (cnorm2_nonneg (s (S n) x)) as P1. pose proof (rest_nonneg n (fun i => x (S i))) as P2.
  cbn [rest] in E. set (s' := s n (fun i => x (S i))) in *. pose proof (cnorm2_nonneg s') as P3.
  assert (Z1 : cnorm2 s' = 0) by nra. assert (Z2 : rest n (fun i => x (S i)) = 0) by nra. assert (Z3 : cnorm2 (s (S n) x) = 0) by nra.
  destruct i as [|i].
  - apply cnorm2_zero in Z3. apply cnorm2_zero in Z1. rewrite s_front in Z3. fold s' in Z3. rewrite Z1 in Z3.
    pose proof (f_equal re Z3) as R1. pose proof (f_equal im Z3) as R2. cbn in R1, R2. apply cplx_eq; cbn; lra.
  - apply (IH (fun i => x (S i))); [|lia]. fold s'. rewrite Z1, Z2. ring.
Qed.
Lemma exp_definite : cnorm2 a < 1 -> positive_definite m.
Proof.
  intros A n x (i & Hi & N). rewrite form_step. cbn. split; [reflexivity|].
  pose proof (cnorm2_nonneg (s n x)). pose proof (rest_nonneg n x).
  destruct (Rle_lt_or_eq_dec 0 (cnorm2 (s n x) + (1 - cnorm2 a) * rest n x)) as [L|L]; [nra|exact L|].
  exfalso. apply N. apply (form_zero n x A); [symmetry; exact L|exact Hi].
Qed.
End Exp.

Lemma sqrt_lt_1_iff x : 0 <= x -> (sqrt x < 1 <-> x < 1).
Proof.
  intros P. split; intros L.
  - destruct (Rlt_le_dec x 1) as [Q|Q]; [exact Q|]. pose proof (sqrt_le_1_alt 1 x Q). rewrite sqrt_1 in *. lra.
  - rewrite <- sqrt_1. apply sqrt_lt_1_alt. lra.
Qed.

Lemma C53_exp a : (forall x, In x a -> cnorm2 x < 1) ->
  exists ms, exp_corr_mat a = Ok ms /\ length ms = length a /\
  forall q, (q < length a)%nat ->
    let m := nth q ms (fun _ _ => c0) in
    correlation_matrix m /\ positive_definite m /\
    (forall i j, (j <= i)%nat -> m (S i) j = cmul (nth q a c0) (m i j)).
Proof.
  intros A. unfold exp_corr_mat.
  assert (forallb (fun x => Rltb (sqrt (cnorm2 x)) 1) a = true) as ->.
  { apply forallb_forall. intros x Hx. apply Rltb_true. apply sqrt_lt_1_iff; [apply cnorm2_nonneg|apply A; exact Hx]. }
  eexists. split; [reflexivity|]. split; [apply map_length|]. intros q Hq.
  set (F := fun x : cplx => _). rewrite (nth_indep _ (fun _ _ => c0) (F c0)) by (rewrite map_length; exact Hq).
  rewrite (map_nth F). unfold F. clear F. assert (N : cnorm2 (nth q a c0) < 1) by (apply A, nth_In; exact Hq).
  set (x := nth q a c0) in *. cbv zeta. split; [|split].
  - apply (toeplitz_correlation (fun k => match tf_pow x k with None => c1 | Some z => z end)).
    + rewrite pow_col. reflexivity.
    + intros k. rewrite pow_col. apply cpow_norm. exact N.
  - apply exp_definite. exact N.
  - intros i j L. unfold toeplitz. destruct (Nat.leb_spec j i); [|lia]. destruct (Nat.leb_spec j (S i)); [|lia].
    rewrite !pow_col. replace (S i - j)%nat with (S (i - j)) by lia. reflexivity.
Qed.
Lemma C53_reject a x : In x a -> 1 <= cnorm2 x -> exists msg, exp_corr_mat a = Err (InvalidArgumentError msg).
Proof.
  intros I L. unfold exp_corr_mat. destruct (forallb _ a) eqn:E; [|eexists; reflexivity].
  rewrite forallb_forall in E. specialize (E x I). apply Rltb_true in E. pose proof (proj1 (sqrt_lt_1_iff _ (cnorm2_nonneg x)) E). lra.
Qed.

(* ---- one-ring ---- *)
Lemma Un_cv_sumR n (u : nat -> nat -> R) (l : nat -> R) :
  (forall i, Un_cv (u i) (l i)) -> Un_cv (fun K => sumR n (fun i => u i K)) (sumR n l).
Proof.
  intros H. induction n as [|n IH]; cbn [sumR].
  - intros e He. exists 0%nat. intros. unfold R_dist. rewrite Rminus_0_r, Rabs_R0. exact He.
  - apply (CV_plus _ _ _ _ IH (H n)).
Qed.
Lemma Un_cv_scale c u l : Un_cv u l -> Un_cv (fun K => c * u K) (c * l).
Proof.
  intros H. apply (CV_mult (fun _ => c) u c l); [|exact H].
  intros e He. exists 0%nat. intros. unfold R_dist. rewrite Rminus_diag_eq, Rabs_R0 by reflexivity. exact He.
Qed.
Lemma Un_cv_nonneg u l : Un_cv u l -> (forall K, 0 <= u K) -> 0 <= l.
Proof.
  intros H P. destruct (Rle_lt_dec 0 l) as [L|L]; [exact L|]. destruct (H (- l)) as [N HN]; [lra|].
  specialize (HN N (le_n N)). unfold R_dist in HN. specialize (P N). rewrite Rabs_right in HN by lra. lra.
Qed.
Lemma exp_series x : Un_cv (fun K => sum_f_R0 (fun k => / INR (fact k) * x ^ k) K) (exp x).
Proof. unfold exp. destruct (exist_exp x) as [l H]. exact H. Qed.

Lemma sum_f_sumR f K : sum_f_R0 f K = sumR (S K) f.
Proof. induction K as [|K IH]; [cbn; ring|]. rewrite tech5, IH. reflexivity. Qed.

(* the kernel e^{2 A i j} is positive semidefinite *)
Lemma exp_kernel n A (z : nat -> cplx) : 0 <= A ->
  0 <= sumR n (fun i => sumR n (fun j => (re (z i) * re (z j) + im (z i) * im (z j)) * exp (A * INR i * INR j))).
Proof.
  intros HA.
  apply (Un_cv_nonneg (fun K => sumR n (fun i => sumR n (fun j => (re (z i) * re (z j) + im (z i) * im (z j)) *
            sum_f_R0 (fun k => / INR (fact k) * (A * INR i * INR j) ^ k) K)))).
  - apply (Un_cv_sumR n (fun i K => sumR n (fun j => (re (z i) * re (z j) + im (z i) * im (z j)) *
            sum_f_R0 (fun k => / INR (fact k) * (A * INR i * INR j) ^ k) K))). intros i.
    apply (Un_cv_sumR n (fun j K => (re (z i) * re (z j) + im (z i) * im (z j)) *
            sum_f_R0 (fun k => / INR (fact k) * (A * INR i * INR j) ^ k) K)). intros j.
    apply Un_cv_scale, exp_series.
  - intros K.
    rewrite (sumR_ext n _ (fun i => sumR (S K) (fun k => / INR (fact k) * A ^ k * sumR n (fun j =>
        (re (z i) * INR i ^ k) * (re (z j) * INR j ^ k) + (im (z i) * INR i ^ k) * (im (z j) * INR j ^ k))))).
    + rewrite sumR_swap. apply sumR_nonneg. intros k _. rewrite sumR_scale.
      apply Rmult_le_pos; [apply Rmult_le_pos; [left; apply Rinv_0_lt_compat, INR_fact_lt_0|apply pow_le; exact HA]|].
      set (P := sumR n (fun j => re (z j) * INR j ^ k)). set (Q := sumR n (fun j => im (z j) * INR j ^ k)).
      rewrite (sumR_ext n _ (fun i => P * (re (z i) * INR i ^ k) + Q * (im (z i) * INR i ^ k))).
      * rewrite sumR_plus, !sumR_scale. fold P Q. nra.
      * intros i _. rewrite sumR_plus, !sumR_scale. fold P Q. ring.
    + intros i _.
      rewrite (sumR_ext n _ (fun j => sumR (S K) (fun k => / INR (fact k) * A ^ k * ((re (z i) * INR i ^ k) * (re (z j) * INR j ^ k) +
           (im (z i) * INR i ^ k) * (im (z j) * INR j ^ k))))).
      * rewrite sumR_swap. apply sumR_ext. intros k _. rewrite sumR_scale. reflexivity.
      * intros j _. rewrite sum_f_sumR, <- sumR_scale. apply sumR_ext. intros k _. rewrite !Rpow_mult_distr. ring.
Qed.

Lemma gauss_form n th A (x : nat -> cplx) (m : nat -> nat -> cplx) : 0 <= A ->
  (forall i j, m i j = cmul (cexpi (th * (INR i - INR j))) (creal (exp (- A * (INR i - INR j) ^ 2)))) ->
  0 <= re (quadratic_form n m x).
Proof.
  intros HA M. pose (z := fun i => cmul (cmul (cconj (x i)) (cexpi (th * INR i))) (creal (exp (- A * INR i ^ 2)))).
  assert (E : re (quadratic_form n m x) =
     sumR n (fun i => sumR n (fun j => (re (z i) * re (z j) + im (z i) * im (z j)) * exp (2 * A * INR i * INR j)))).
  { unfold quadratic_form. rewrite csumN_re. apply sumR_ext. intros i _. rewrite csumN_re. apply sumR_ext. intros j _.
    rewrite M. replace (th * (INR i - INR j)) with (th * INR i + - (th * INR j)) by ring. rewrite cexpi_add, <- cconj_cexpi.
    replace (- A * (INR i - INR j) ^ 2) with (- A * INR i ^ 2 + (- A * INR j ^ 2 + 2 * A * INR i * INR j)) by ring.
    rewrite !exp_plus. unfold z. generalize (cexpi (th * INR i)) (cexpi (th * INR j)) (exp (- A * INR i ^ 2)) (exp (- A * INR j ^ 2))
      (exp (2 * A * INR i * INR j)) (x i) (x j). intros [a b] [c d] e f g [p q] [u v]. cbn. ring. }
  rewrite E. apply exp_kernel. lra.
Qed.

Lemma C53_ring phis d_h sigma : length (one_ring_corr_mat phis d_h sigma) = length phis /\
  forall q, (q < length phis)%nat ->
    let m := nth q (one_ring_corr_mat phis d_h sigma) (fun _ _ => c0) in
    let phi := nth q phis 0 * PI / 180 in
    let sg := sigma * PI / 180 in
    correlation_matrix m /\ positive_semidefinite m /\
    (forall l k, m l k = cmul (cexpi (2 * PI * d_h * (INR l - INR k) * sin phi))
                              (creal (exp (- (sg ^ 2 / 2) * (2 * PI * d_h * (INR l - INR k) * cos phi) ^ 2)))).
Proof.
  unfold one_ring_corr_mat. split; [apply map_length|]. intros q Hq.
  set (F := fun ph : R => _). rewrite (nth_indep _ (fun _ _ => c0) (F 0)) by (rewrite map_length; exact Hq).
  rewrite (map_nth F). set (ph := nth q phis 0). cbv zeta.
  assert (Ef : forall l k, F ph l k = cmul (cexpi (2 * PI * d_h * (INR l - INR k) * sin (ph * PI / 180)))
     (creal (exp (- ((sigma * PI / 180) ^ 2 / 2) * (2 * PI * d_h * (INR l - INR k) * cos (ph * PI / 180)) ^ 2)))).
  { intros l k. unfold F, toeplitz, deg_2_rad. cbv zeta.
    replace (ph * (PI / 180)) with (ph * PI / 180) by field. replace (sigma * (PI / 180)) with (sigma * PI / 180) by field.
    destruct (Nat.leb_spec k l).
    - rewrite minus_INR by lia. do 2 f_equal. f_equal. lra.
    - rewrite minus_INR by lia. rewrite cconj_mul, cconj_cexpi. f_equal.
      + f_equal. ring.
      + apply cplx_eq; cbn [re im creal cconj]; [f_equal; lra|ring]. }
  assert (C : correlation_matrix (F ph)).
  { unfold F. apply (toeplitz_correlation (fun k => cmul (cexpi (2 * PI * d_h * INR k * sin (deg_2_rad ph)))
        (creal (exp (-0.5 * (deg_2_rad sigma * (2 * PI * d_h * INR k) * cos (deg_2_rad ph)) ^ 2))))).
    - cbn [INR]. replace (2 * PI * d_h * 0 * sin (deg_2_rad ph)) with 0 by ring.
      replace (-0.5 * (deg_2_rad sigma * (2 * PI * d_h * 0) * cos (deg_2_rad ph)) ^ 2) with 0 by ring.
      rewrite exp_0, cexpi_0. apply cplx_eq; cbn; ring.
    - intros k. rewrite cnorm2_mul, cexpi_norm, cnorm2_real.
      set (e := -0.5 * _). assert (He : e <= 0) by (unfold e; pose proof (pow2_ge_0 (deg_2_rad sigma * (2 * PI * d_h * INR k) * cos (deg_2_rad ph))); lra).
      assert (exp e <= 1) by (rewrite <- exp_0; destruct He as [He|He]; [left; apply exp_increasing; exact He|rewrite He; lra]).
      pose proof (exp_pos e). nra. }
  split; [exact C|]. split; [|exact Ef].
  intros n x. split; [apply form_real; apply (proj1 C)|].
  apply (gauss_form n (2 * PI * d_h * sin (ph * PI / 180)) ((sigma * PI / 180) ^ 2 / 2 * (2 * PI * d_h * cos (ph * PI / 180)) ^ 2)).
  - apply Rmult_le_pos; [pose proof (pow2_ge_0 (sigma * PI / 180)); lra|apply pow2_ge_0].
  - intros i j. rewrite Ef. f_equal; [f_equal; ring|]. do 2 f_equal. ring.
Qed.
