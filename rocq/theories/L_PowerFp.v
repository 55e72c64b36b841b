(* Lemmas for C102: the cluster delays and powers in finite precision. *)
From Coq Require Import Reals String ZArith List Bool Arith Lra Lia Permutation Sorted.
From Verif Require Import M_Base L_Base M_Params L_Params M_Geometry M_Scenario S_Config S_Topology L_Scenario L_Fresh L_Topology L_Config L_Corr M_Lsp S_Lsp L_Lsp M_Rays S_Rays L_Rays L_RaysEx
  M_Float L_Float L_Position M_PowerFp.
Import ListNotations.
Open Scope string_scope.
Open Scope list_scope.
Open Scope R_scope.

(* ---- numbers that are exact ---- *)
Lemma nearest_int_Z n : nearest_int (IZR n) = n.
Proof. apply nearest_unique. rewrite Rminus_eq_0, Rabs_R0. lra. Qed.

Lemma rnd_0 p : rnd p 0 = 0.
Proof. unfold rnd, Rltb. destruct (Rlt_dec 0 0); [lra | reflexivity]. Qed.

Lemma rnd_grid p k n : (1 <= p)%Z -> (0 < n <= 2 ^ p)%Z -> rnd p (IZR n * powerRZ 2 k) = IZR n * powerRZ 2 k.
Proof.
  intros Hp [N0 N1]. set (x := IZR n * powerRZ 2 k). pose proof (two_z_pos k) as K.
  assert (N : 0 < IZR n) by (apply IZR_lt; exact N0).
  assert (X : 0 < x) by (apply Rmult_lt_0_compat; assumption).
  rewrite rnd_pos_eq by exact X. destruct (mag_spec x X) as [A B].
  assert (E : forall m j, mag x = m -> x / powerRZ 2 (m - (p - 1)) = IZR j -> IZR (nearest_int (x / ulp p x)) * ulp p x = x).
  { intros m j M J. unfold ulp. rewrite M, J, nearest_int_Z, <- J. field. apply Rgt_not_eq, two_z_pos. }
  destruct (Z_le_gt_dec (mag x - (p - 1)) k) as [G | G].
  - apply (E (mag x) (n * 2 ^ (k - (mag x - (p - 1))))%Z); [reflexivity|].
    unfold x at 1. replace k with ((k - (mag x - (p - 1))) + (mag x - (p - 1)))%Z at 1 by lia.
    rewrite two_z_add, mult_IZR, <- two_z_nonneg by lia. field. apply Rgt_not_eq, two_z_pos.
  - assert (L : powerRZ 2 (k + p) <= x) by (apply Rle_trans with (2 := A); apply two_z_le; lia).
    assert (U : x <= powerRZ 2 (k + p)).
    { unfold x. rewrite two_z_add, Rmult_comm, (two_z_nonneg p) by lia.
      apply Rmult_le_compat_l; [lra | apply IZR_le; exact N1]. }
    assert (EX : x = powerRZ 2 (k + p)) by lra.
    apply (E (k + p)%Z (2 ^ (p - 1))%Z).
    + apply mag_unique. rewrite EX. rewrite (two_z_add (k + p) 1). change (powerRZ 2 1) with (2 * 1).
      pose proof (two_z_pos (k + p)). lra.
    + rewrite EX, <- two_z_nonneg by lia. replace (k + p)%Z with ((p - 1) + (k + p - (p - 1)))%Z at 1 by lia.
      rewrite two_z_add. field. apply Rgt_not_eq, two_z_pos.
Qed.

Lemma rnd_on_grid p x : (1 <= p)%Z -> 0 < x -> exists n k, (0 < n <= 2 ^ p)%Z /\ rnd p x = IZR n * powerRZ 2 k.
Proof.
  intros Hp X. rewrite rnd_pos_eq by exact X.
  exists (nearest_int (x / ulp p x)), (mag x - (p - 1))%Z. split; [| reflexivity].
  destruct (mag_spec x X) as [A B]. pose proof (ulp_pos p x) as U.
  assert (E : x = x / ulp p x * ulp p x) by (field; lra). set (y := x / ulp p x) in *.
  assert (L : 1 <= y).
  { apply (Rmult_le_reg_r (ulp p x)); [exact U|]. rewrite <- E, Rmult_1_l. apply Rle_trans with (2 := A).
    apply two_z_le. lia. }
  assert (H : y < IZR (2 ^ p)).
  { apply (Rmult_lt_reg_r (ulp p x)); [exact U|]. rewrite <- E, <- two_z_nonneg by lia. unfold ulp.
    rewrite <- two_z_add. replace (p + (mag x - (p - 1)))%Z with (mag x + 1)%Z by lia. exact B. }
  pose proof (nearest_err y) as R. apply abs_le_inv in R. split.
  - apply lt_IZR. lra.
  - assert (IZR (nearest_int y) < IZR (2 ^ p + 1)) by (rewrite plus_IZR; lra). apply lt_IZR in H0. lia.
Qed.

Lemma rnd_idem p x : (1 <= p)%Z -> rnd p (rnd p x) = rnd p x.
Proof.
  intros Hp. assert (POS : forall y, 0 < y -> rnd p (rnd p y) = rnd p y).
  { intros y Y. destruct (rnd_on_grid p y Hp Y) as (n & k & N & ->). apply rnd_grid; assumption. }
  destruct (Rtotal_order x 0) as [L | [-> | G]].
  - rewrite <- (Ropp_involutive x), (rnd_neg p (- x)), rnd_neg, POS by lra. reflexivity.
  - rewrite !rnd_0. reflexivity.
  - apply POS. exact G.
Qed.

Lemma rnd_1 p : (1 <= p)%Z -> rnd p 1 = 1.
Proof.
  intros H. pose proof (rnd_grid p 0 1 H) as E. replace (IZR 1 * powerRZ 2 0) with 1 in E by (simpl; ring).
  apply E. split; [lia|]. change 1%Z with (2 ^ 0)%Z. apply Z.pow_le_mono_r; lia.
Qed.

Lemma rnd_nonneg p x : 0 <= x -> (1 <= p)%Z -> 0 <= rnd p x.
Proof.
  intros H Hp. destruct (Rle_lt_or_eq_dec _ _ H) as [G | <-]; [| rewrite rnd_0; lra].
  destruct (rnd_on_grid p x Hp G) as (n & k & N & ->).
  apply Rmult_le_pos; [apply IZR_le; lia | left; apply two_z_pos].
Qed.

(* ---- sorting moves nothing further than its argument moved ---- *)
Definition cnt (v : R) (l : list R) : nat := length (filter (fun x => Rleb x v) l).

Lemma cnt_perm v l l' : Permutation l l' -> cnt v l = cnt v l'.
Proof.
  unfold cnt. induction 1; cbn; [reflexivity | | | congruence].
  - destruct (Rleb x v); cbn; congruence.
  - destruct (Rleb x v), (Rleb y v); reflexivity.
Qed.

Lemma cnt_app v l l' : cnt v (l ++ l') = (cnt v l + cnt v l')%nat.
Proof. unfold cnt. rewrite filter_app, app_length. reflexivity. Qed.

Lemma cnt_shift e v l l' : Forall2 (fun a b => a <= b + e) l l' -> (cnt v l' <= cnt (v + e) l)%nat.
Proof.
  unfold cnt. induction 1; cbn; [lia|]. destruct (Rleb y v) eqn:E1, (Rleb x (v + e)) eqn:E2; cbn; try lia.
  exfalso. unfold Rleb in E1, E2. destruct (Rle_dec y v), (Rle_dec x (v + e)); try discriminate. lra.
Qed.

Lemma cnt_none v l : (forall x, In x l -> v < x) -> cnt v l = 0%nat.
Proof.
  unfold cnt. induction l as [| a l IH]; intros H; [reflexivity|]. cbn. unfold Rleb at 1.
  destruct (Rle_dec a v) as [G | _]; [specialize (H a (or_introl eq_refl)); lra|].
  apply IH. intros x Hx. apply H. right. exact Hx.
Qed.

Lemma cnt_sorted_ge l : StronglySorted Rle l -> forall k, (k < length l)%nat -> (k < cnt (nth k l 0%R) l)%nat.
Proof.
  induction 1 as [| a l S IH F]; intros k Hk; [cbn in Hk; lia|]. rewrite Forall_forall in F.
  destruct k as [| k]; cbn [nth].
  - unfold cnt. cbn. unfold Rleb at 1. destruct (Rle_dec a a) as [_ | G]; [cbn; lia | lra].
  - cbn in Hk. specialize (IH k ltac:(lia)). unfold cnt in *. cbn. unfold Rleb at 1.
    assert (A : a <= nth k l 0) by (apply F, nth_In; lia). destruct (Rle_dec a (nth k l 0)); [cbn; lia | lra].
Qed.

Lemma cnt_sorted_le l : StronglySorted Rle l -> forall k v, (k < length l)%nat -> (k < cnt v l)%nat -> nth k l 0 <= v.
Proof.
  induction 1 as [| a l S IH F]; intros k v Hk Hc; [cbn in Hk; lia|]. rewrite Forall_forall in F.
  assert (A : a <= v).
  { destruct (Rle_dec a v) as [G | G]; [exact G|]. exfalso. rewrite cnt_none in Hc; [lia|].
    intros x [<- | Hx]; [lra | specialize (F x Hx); lra]. }
  destruct k as [| k]; [exact A|]. cbn [nth]. cbn in Hk. apply IH; [lia|].
  unfold cnt in *. cbn in Hc. unfold Rleb at 1 in Hc. destruct (Rle_dec a v); [cbn in Hc; lia | lra].
Qed.

Lemma Forall2_len (P : R -> R -> Prop) l l' : Forall2 P l l' -> length l = length l'.
Proof. induction 1; cbn; congruence. Qed.

Lemma rsort_le e l l' : Forall2 (fun a b => a <= b + e) l l' -> forall k, (k < length l)%nat ->
  nth k (rsort l) 0 <= nth k (rsort l') 0 + e.
Proof.
  intros H k Hk. pose proof (Forall2_len _ _ _ H) as L.
  apply cnt_sorted_le; [apply rsort_sorted | rewrite rsort_length; exact Hk|].
  rewrite (cnt_perm _ _ _ (rsort_perm l)).
  apply Nat.lt_le_trans with (cnt (nth k (rsort l') 0) l'); [| apply cnt_shift; exact H].
  rewrite <- (cnt_perm _ _ _ (rsort_perm l')). apply cnt_sorted_ge; [apply rsort_sorted | rewrite rsort_length; lia].
Qed.

Lemma rsort_near e l l' : Forall2 (fun a b => Rabs (a - b) <= e) l l' -> forall k, (k < length l)%nat ->
  Rabs (nth k (rsort l) 0 - nth k (rsort l') 0) <= e.
Proof.
  intros H k Hk. pose proof (Forall2_len _ _ _ H) as L.
  assert (A : Forall2 (fun a b => a <= b + e) l l').
  { clear - H. induction H; constructor; [apply abs_le_inv in H; lra | assumption]. }
  assert (B : Forall2 (fun a b => a <= b + e) l' l).
  { clear - H. induction H; constructor; [apply abs_le_inv in H; lra | assumption]. }
  pose proof (rsort_le e l l' A k Hk). pose proof (rsort_le e l' l B k ltac:(lia)). apply Rabs_le. lra.
Qed.

(* the large elements stay behind the small ones *)
Lemma SS_app (l l' : list R) : StronglySorted Rle l -> StronglySorted Rle l' ->
  (forall x y, In x l -> In y l' -> x <= y) -> StronglySorted Rle (l ++ l').
Proof.
  intros S S' H. induction S as [| a l S IH F]; [exact S'|]. cbn. constructor.
  - apply IH. intros x y Hx. apply H. right. exact Hx.
  - apply Forall_app. split; [exact F|]. apply Forall_forall. intros y. apply H. left. reflexivity.
Qed.

Lemma rsort_split l l' : (forall x y, In x l -> In y l' -> x <= y) -> forall k, (k < length l)%nat ->
  nth k (rsort (l ++ l')) 0 = nth k (rsort l) 0.
Proof.
  intros H k Hk.
  assert (P : Permutation (rsort (l ++ l')) (rsort l ++ rsort l')).
  { apply Permutation_trans with (l ++ l'); [apply rsort_perm|]. apply Permutation_sym.
    apply Permutation_app; apply rsort_perm. }
  assert (S : StronglySorted Rle (rsort l ++ rsort l')).
  { apply SS_app; try apply rsort_sorted. intros x y Hx Hy. apply H; eapply Permutation_in; try apply rsort_perm; assumption. }
  assert (L : length (rsort (l ++ l')) = (length l + length l')%nat) by (rewrite rsort_length; apply app_length).
  transitivity (nth k (rsort l ++ rsort l') 0); [| apply app_nth1; rewrite rsort_length; exact Hk].
  apply Rle_antisym.
  - apply cnt_sorted_le; [apply rsort_sorted | lia|]. rewrite (cnt_perm _ _ _ P).
    apply cnt_sorted_ge; [exact S | rewrite app_length, !rsort_length; lia].
  - apply cnt_sorted_le; [exact S | rewrite app_length, !rsort_length; lia|]. rewrite <- (cnt_perm _ _ _ P).
    apply cnt_sorted_ge; [apply rsort_sorted | lia].
Qed.

(* the minimum *)
Lemma reduce_min_near e l l' : Forall2 (fun a b => Rabs (a - b) <= e) l l' -> l <> [] ->
  Rabs (reduce_min l - reduce_min l') <= e.
Proof.
  intros H N. assert (N' : l' <> []) by (intros ->; inversion H; subst; congruence).
  destruct (reduce_min_spec l N) as [A B], (reduce_min_spec l' N') as [A' B'].
  assert (X : exists y, In y l' /\ Rabs (reduce_min l - y) <= e).
  { clear - H A. revert A. generalize (reduce_min l). induction H; intros m A; [destruct A |]; destruct A as [<- | A].
    - exists y. split; [left; reflexivity | assumption].
    - destruct (IHForall2 m A) as (z & Z1 & Z2). exists z. split; [right; exact Z1 | exact Z2]. }
  assert (X' : exists y, In y l /\ Rabs (y - reduce_min l') <= e).
  { clear - H A'. revert A'. generalize (reduce_min l'). induction H; intros m A; [destruct A |]; destruct A as [<- | A].
    - exists x. split; [left; reflexivity | assumption].
    - destruct (IHForall2 m A) as (z & Z1 & Z2). exists z. split; [right; exact Z1 | exact Z2]. }
  destruct X as (y & Y1 & Y2), X' as (z & Z1 & Z2). specialize (B z Z1). specialize (B' y Y1).
  apply abs_le_inv in Y2. apply abs_le_inv in Z2. apply Rabs_le. lra.
Qed.

(* ---- numeric bounds ---- *)
Lemma sq_lower a b x : 0 <= a -> a <= x -> b <= a * a -> b <= x * x.
Proof. intros. nra. Qed.

Lemma ln10_le : ln 10 <= 14 / 6.
Proof.
  assert (E : exp (14 / 6) = exp (14 / 6 / 256) ^ 256).
  { rewrite <- Rpower_pow by apply exp_pos. unfold Rpower. rewrite ln_exp. f_equal. rewrite INR_IZR_INZ. simpl Z.of_nat. lra. }
  pose proof (exp_ineq1_le (14 / 6 / 256)) as I. set (x := exp (14 / 6 / 256)) in *.
  assert (X0 : 1.0091 <= x) by lra.
  assert (D : forall n, x ^ (2 * n) = x ^ n * x ^ n) by (intros n; rewrite <- pow_add; f_equal; lia).
  assert (X1 : 1.01828 <= x ^ 2) by (simpl; rewrite Rmult_1_r; apply (sq_lower 1.0091); lra).
  assert (X2 : 1.03689 <= x ^ 4) by (change 4%nat with (2 * 2)%nat; rewrite D; apply (sq_lower 1.01828); lra).
  assert (X3 : 1.07514 <= x ^ 8) by (change 8%nat with (2 * 4)%nat; rewrite D; apply (sq_lower 1.03689); lra).
  assert (X4 : 1.15592 <= x ^ 16) by (change 16%nat with (2 * 8)%nat; rewrite D; apply (sq_lower 1.07514); lra).
  assert (X5 : 1.33615 <= x ^ 32) by (change 32%nat with (2 * 16)%nat; rewrite D; apply (sq_lower 1.15592); lra).
  assert (X6 : 1.7852 <= x ^ 64) by (change 64%nat with (2 * 32)%nat; rewrite D; apply (sq_lower 1.33615); lra).
  assert (X7 : 3.1869 <= x ^ 128) by (change 128%nat with (2 * 64)%nat; rewrite D; apply (sq_lower 1.7852); lra).
  assert (X8 : 10.15 <= x ^ 256) by (change 256%nat with (2 * 128)%nat; rewrite D; apply (sq_lower 3.1869); lra).
  apply Rnot_lt_le. intros H. apply exp_increasing in H. rewrite exp_ln in H by lra. lra.
Qed.

Lemma neg_ln_bounds x : / 10 ^ 6 <= x <= 1 -> 0 <= - ln x <= 14.
Proof.
  intros [A B]. assert (P : 0 < / 10 ^ 6) by (apply Rinv_0_lt_compat; apply pow_lt; lra). split.
  - destruct B as [B | ->]; [apply ln_increasing in B; [rewrite ln_1 in B; lra | lra] | rewrite ln_1; lra].
  - assert (L : ln (/ 10 ^ 6) <= ln x).
    { destruct A as [A | <-]; [left; apply ln_increasing; assumption | lra]. }
    rewrite ln_Rinv in L by (apply pow_lt; lra).
    rewrite <- Rpower_pow in L by lra. unfold Rpower in L. rewrite ln_exp, INR_IZR_INZ in L. simpl Z.of_nat in L.
    pose proof ln10_le. lra.
Qed.

Lemma exp_near h : 0 <= h <= 1 / 4 -> forall d, Rabs d <= h -> Rabs (exp d - 1) <= h + 2 * h * h.
Proof.
  intros Hh d Hd. apply abs_le_inv in Hd. pose proof (exp_ineq1_le d) as A. pose proof (exp_ineq1_le (- d)) as B.
  rewrite exp_Ropp in B. pose proof (exp_pos d) as P. apply Rabs_le. split; [nra|].
  assert (C : exp d * (1 - d) <= 1).
  { replace 1 with (exp d * / exp d) at 2 by (field; lra). apply Rmult_le_compat_l; lra. }
  assert (E : exp d * (1 - h) <= 1) by nra.
  assert (F : 1 <= (1 + h + 2 * h * h) * (1 - h)) by nra.
  assert (G : exp d <= 1 + h + 2 * h * h); [| lra].
  apply (Rmult_le_reg_r (1 - h)); lra.
Qed.

Section Accuracy.
  Context (p : Z) (Hp : (24 <= p)%Z).
  Let u := powerRZ 2 (- p).

  Lemma uu : 0 < u <= 1 / 16777216.
  Proof. apply unit_24. exact Hp. Qed.

  Lemma near_rnd0 x : 0 <= x -> Rabs (rnd p x - x) <= u * x.
  Proof.
    intros H. destruct (Rle_lt_or_eq_dec _ _ H) as [G | <-].
    - rewrite Rmult_comm. apply rnd_err. exact G.
    - rewrite rnd_0, Rminus_0_r, Rabs_R0. lra.
  Qed.

  Lemma rnd_rel x : Rabs (rnd p x - x) <= u * Rabs x.
  Proof.
    destruct (Rle_dec 0 x) as [H | H]; [rewrite (Rabs_right x) by lra; apply near_rnd0, H|].
    rewrite (Rabs_left x) by lra. rewrite <- (Ropp_involutive x) at 1 2. rewrite rnd_neg, <- Rabs_Ropp.
    replace (- (- rnd p (- x) - - - x)) with (rnd p (- x) - - x) by ring. apply near_rnd0. lra.
  Qed.

  Lemma kn_weaken a b x y : 0 <= x -> a <= b -> near (a * u) x y -> near (b * u) x y.
  Proof.
    intros Hx H N. pose proof uu. unfold near in *. apply Rle_trans with (1 := N).
    apply Rmult_le_compat_r; [exact Hx|]. apply Rmult_le_compat_r; lra.
  Qed.

  Lemma kn_nonneg a x y : 0 <= x -> 0 <= a <= 2000 -> near (a * u) x y -> 0 <= y.
  Proof. intros Hx Ha N. pose proof uu. apply near_bounds in N. assert (a * u <= 1) by nra. nra. Qed.

  Lemma kn_pos a x y : 0 < x -> 0 <= a <= 2000 -> near (a * u) x y -> 0 < y.
  Proof. intros Hx Ha N. pose proof uu. apply near_bounds in N. assert (a * u <= 1 / 2) by nra. nra. Qed.

  Lemma kn_step a b x y : 0 <= x -> 0 <= a <= 2000 -> a + 1.001 <= b -> near (a * u) x y -> near (b * u) x (rnd p y).
  Proof.
    intros Hx Ha Hb N. pose proof uu as U. pose proof (kn_nonneg a x y Hx Ha N) as Y.
    apply (kn_weaken (a + 1 + a * u)); [exact Hx | assert (a * u <= 2000 / 16777216) by nra; lra |].
    pose proof (near_rnd0 y Y) as R. unfold near in *.
    apply abs_le_inv in N. apply abs_le_inv in R. apply Rabs_le.
    assert (u * y <= u * (x + a * u * x)) by (apply Rmult_le_compat_l; lra). lra.
  Qed.

  Lemma kn_mult a b c x y x' y' : 0 <= x -> 0 <= y -> 0 <= a <= 1000 -> 0 <= b <= 1000 -> a + b + 0.1 <= c ->
    near (a * u) x x' -> near (b * u) y y' -> near (c * u) (x * y) (x' * y').
  Proof.
    intros Hx Hy Ha Hb Hc N M. pose proof uu as U.
    assert (AB : a * b * u <= 0.1).
    { apply Rle_trans with (1000 * 1000 * (1 / 16777216)); [| lra].
      apply Rmult_le_compat; try nra. }
    apply (kn_weaken (a + b + a * b * u)); [nra | lra |].
    unfold near in *. replace (x' * y' - x * y) with ((x' - x) * y + x * (y' - y) + (x' - x) * (y' - y)) by ring.
    assert (A1 : Rabs ((x' - x) * y) <= a * u * x * y).
    { rewrite Rabs_mult, (Rabs_right y) by lra. apply Rmult_le_compat_r; assumption. }
    assert (A2 : Rabs (x * (y' - y)) <= x * (b * u * y)).
    { rewrite Rabs_mult, (Rabs_right x) by lra. apply Rmult_le_compat_l; assumption. }
    assert (A3 : Rabs ((x' - x) * (y' - y)) <= a * u * x * (b * u * y)).
    { rewrite Rabs_mult. apply Rmult_le_compat; try assumption; apply Rabs_pos. }
    eapply Rle_trans; [apply Rabs_triang|].
    apply Rle_trans with (a * u * x * y + x * (b * u * y) + a * u * x * (b * u * y)); [| right; ring].
    apply Rplus_le_compat; [| exact A3]. eapply Rle_trans; [apply Rabs_triang|]. apply Rplus_le_compat; assumption.
  Qed.

  Lemma kn_quot a b c x y x' y' : 0 <= x -> 0 < y -> 0 <= a <= 800 -> 0 <= b <= 800 -> a + b + 0.1 <= c ->
    near (a * u) x x' -> near (b * u) y y' -> near (c * u) (x / y) (x' / y').
  Proof.
    intros Hx Hy Ha Hb Hc N M. pose proof uu as U. pose proof (kn_pos b y y' Hy ltac:(lra) M) as Y'.
    assert (Q : 0 <= x / y) by (apply Rmult_le_pos; [exact Hx | left; apply Rinv_0_lt_compat; exact Hy]).
    apply (kn_weaken (a + b + 0.1)); [exact Q | exact Hc |].
    assert (BU : 0 <= b * u <= 800 / 16777216) by nra. assert (AU : 0 <= a * u <= 800 / 16777216) by nra.
    apply near_bounds in N. apply near_bounds in M. apply bounds_near.
    assert (S : b * (a + b + 0.1) * u <= 0.1).
    { apply Rle_trans with (800 * 1600.1 * (1 / 16777216)); [| lra]. apply Rmult_le_compat; try nra. }
    set (e := (a + b + 0.1) * u) in *.
    assert (ES : b * u * e <= 0.1 * u) by (unfold e; nra).
    split; apply (Rmult_le_reg_r y'); try exact Y'; unfold Rdiv; rewrite (Rmult_assoc x' (/ y')), Rinv_l, Rmult_1_r by lra.
    - (* x/y (1-e) y' <= x' *)
      apply Rle_trans with (x * (1 - a * u)); [| lra].
      assert (E1 : 0 <= e <= 1 / 2) by (unfold e; nra).
      apply Rle_trans with (x * / y * (1 - e) * (y * (1 + b * u))).
      + apply Rmult_le_compat_l; [apply Rmult_le_pos; [exact Q | lra] | lra].
      + replace (x * / y * (1 - e) * (y * (1 + b * u))) with (x * ((1 - e) * (1 + b * u))) by (field; lra).
        apply Rmult_le_compat_l; [exact Hx|]. unfold e in *. nra.
    - apply Rle_trans with (x * (1 + a * u)); [lra|].
      apply Rle_trans with (x * / y * (1 + e) * (y * (1 - b * u))).
      + replace (x * / y * (1 + e) * (y * (1 - b * u))) with (x * ((1 + e) * (1 - b * u))) by (field; lra).
        apply Rmult_le_compat_l; [exact Hx|]. unfold e in *. nra.
      + assert (E1 : 0 <= e) by (unfold e; nra).
        apply Rmult_le_compat_l; [apply Rmult_le_pos; [exact Q | lra] | lra].
  Qed.

  Lemma kn_trans a b c x y z : 0 <= x -> 0 <= a <= 1000 -> 0 <= b <= 1000 -> a + b + 0.1 <= c ->
    near (a * u) x y -> near (b * u) y z -> near (c * u) x z.
  Proof.
    intros Hx Ha Hb Hc N M. pose proof uu as U.
    assert (AB : a * b * u <= 0.1).
    { apply Rle_trans with (1000 * 1000 * (1 / 16777216)); [| lra].
      apply Rmult_le_compat; try nra. }
    apply (kn_weaken (a + b + a * b * u)); [exact Hx | lra |].
    unfold near in *. apply abs_le_inv in N. apply abs_le_inv in M. apply Rabs_le.
    assert (b * u * y <= b * u * (x + a * u * x)) by (apply Rmult_le_compat_l; [nra | lra]). lra.
  Qed.

  Lemma kn_refl x : 0 <= x -> near (0 * u) x x.
  Proof. intros H. unfold near. rewrite Rminus_eq_0, Rabs_R0. lra. Qed.

  Lemma kn_rnd x : 0 <= x -> near (1 * u) x (rnd p x).
  Proof. intros H. unfold near. rewrite Rmult_1_l. apply near_rnd0. exact H. Qed.

  Lemma near_sum e (f g : nat -> R) l : (forall c, In c l -> near e (f c) (g c)) ->
    near e (Rsum (map f l)) (Rsum (map g l)).
  Proof.
    unfold near. induction l as [| c l IH]; intros H; cbn.
    - rewrite Rminus_0_r, Rabs_R0. lra.
    - specialize (IH (fun c' h => H c' (or_intror h))). specialize (H c (or_introl eq_refl)).
      apply abs_le_inv in IH. apply abs_le_inv in H. apply Rabs_le. lra.
  Qed.

  (* adding nonnegative numbers in any order *)
  Lemma sum_fp_near (f : nat -> R) t : (forall c, In c (terms t) -> 0 <= f c) -> (length (terms t) <= 100)%nat ->
    near (1.01 * INR (length (terms t)) * u) (Rsum (map f (terms t))) (sum_fp p f t).
  Proof.
    induction t as [i | l IHl r IHr]; intros H L; cbn [terms sum_fp].
    - cbn. unfold near. pose proof uu as U. assert (F : 0 <= f i) by (apply H; left; reflexivity).
      replace (f i - (f i + 0)) with 0 by ring. rewrite Rabs_R0. nra.
    - cbn [terms] in H, L. rewrite app_length in L. rewrite map_app, Rsum_app, app_length, plus_INR.
      assert (Hl : forall c, In c (terms l) -> 0 <= f c) by (intros c Hc; apply H, in_or_app; left; exact Hc).
      assert (Hr : forall c, In c (terms r) -> 0 <= f c) by (intros c Hc; apply H, in_or_app; right; exact Hc).
      specialize (IHl Hl ltac:(lia)). specialize (IHr Hr ltac:(lia)).
      assert (PL : forall q, (1 <= length (terms q))%nat) by (induction q; cbn; [lia | rewrite app_length; lia]).
      pose proof (le_INR _ _ (PL l)) as L1. pose proof (le_INR _ _ (PL r)) as L2. cbn [INR] in L1, L2.
      assert (SL : 0 <= Rsum (map f (terms l))) by (apply Rsum_nonneg; intros y Hy; apply in_map_iff in Hy; destruct Hy as (c & <- & Hc); apply Hl, Hc).
      assert (SR : 0 <= Rsum (map f (terms r))) by (apply Rsum_nonneg; intros y Hy; apply in_map_iff in Hy; destruct Hy as (c & <- & Hc); apply Hr, Hc).
      assert (LL : INR (length (terms l)) + INR (length (terms r)) <= 100).
      { rewrite <- plus_INR. replace 100 with (INR 100) by (rewrite INR_IZR_INZ; reflexivity). apply le_INR. exact L. }
      apply (kn_step (1.01 * (INR (length (terms l)) + INR (length (terms r)) - 1))); [lra | lra | lra |].
      pose proof (kn_weaken (1.01 * INR (length (terms l))) (1.01 * (INR (length (terms l)) + INR (length (terms r)) - 1)) _ _ SL ltac:(lra) IHl) as A.
      pose proof (kn_weaken (1.01 * INR (length (terms r))) (1.01 * (INR (length (terms l)) + INR (length (terms r)) - 1)) _ _ SR ltac:(lra) IHr) as B.
      unfold near in *. apply abs_le_inv in A. apply abs_le_inv in B. apply Rabs_le. lra.
  Qed.


  (* ---- one link ---- *)
  Context (rtau ds : R) (Hrt : 2 <= rtau <= 4) (Hds : 0 < ds <= 0.01).
  Let T := rtau * ds.

  Lemma p1 : (1 <= p)%Z.
  Proof. lia. Qed.

  Lemma T_bounds : 0 < T <= 0.04.
  Proof. unfold T. split; nra. Qed.

  Lemma scale_near : near (2.2 * u) T (rnd p (rnd p rtau * ds)).
  Proof.
    pose proof T_bounds as TB. apply (kn_step 1.1); [lra | lra | lra |].
    apply (kn_mult 1 0); try lra; [apply kn_rnd; lra | apply kn_refl; lra].
  Qed.

  Lemma raw_active x : raw_delay_fp p rtau ds 0 x = rnd p (rnd p (rnd p rtau * ds) * rnd p (- ln x)).
  Proof.
    unfold raw_delay_fp. rewrite Rminus_0_r, rnd_1, Rmult_1_r, Rplus_0_r by exact p1.
    rewrite !rnd_idem by exact p1. rewrite Ropp_mult_distr_l_reverse, !rnd_neg. f_equal. ring.
  Qed.

  Lemma raw_masked x : raw_delay_fp p rtau ds 1 x = 1.
  Proof. unfold raw_delay_fp. rewrite Rminus_eq_0, rnd_0, Rmult_0_r, rnd_0, Rplus_0_l. apply rnd_1, p1. Qed.

  Lemma raw_near x : / 10 ^ 6 <= x <= 1 -> near (4.4 * u) (T * - ln x) (raw_delay_fp p rtau ds 0 x).
  Proof.
    intros Hx. destruct (neg_ln_bounds x Hx) as [A B]. pose proof T_bounds as TB. rewrite raw_active.
    apply (kn_step 3.3); [apply Rmult_le_pos; lra | lra | lra |].
    apply (kn_mult 2.2 1); try lra; [exact scale_near | apply kn_rnd; exact A].
  Qed.

  Lemma raw_err x : / 10 ^ 6 <= x <= 1 ->
    0 <= T * - ln x <= 14 * T /\ 0 <= raw_delay_fp p rtau ds 0 x <= 14.1 * T /\
    Rabs (raw_delay_fp p rtau ds 0 x - T * - ln x) <= 61.6 * u * T.
  Proof.
    intros Hx. destruct (neg_ln_bounds x Hx) as [A B]. pose proof T_bounds as TB. pose proof uu as U.
    pose proof (raw_near x Hx) as N. set (l := - ln x) in *.
    assert (X : 0 <= T * l <= 14 * T) by nra. split; [exact X|].
    assert (Y : 0 <= raw_delay_fp p rtau ds 0 x) by (apply (kn_nonneg 4.4 (T * l)); [lra | lra | exact N]).
    assert (E : Rabs (raw_delay_fp p rtau ds 0 x - T * l) <= 61.6 * u * T).
    { unfold near in N. apply Rle_trans with (1 := N).
      replace (61.6 * u * T) with (4.4 * u * (14 * T)) by lra. apply Rmult_le_compat_l; lra. }
    split; [| exact E]. split; [exact Y|]. apply abs_le_inv in E. nra.
  Qed.

  Context (n N : nat) (HN : (1 <= n <= N)%nat) (mask x : nat -> R)
    (HM : forall c, mask c = if Nat.ltb c n then 0 else 1) (Hx : forall c, (c < n)%nat -> / 10 ^ 6 <= x c <= 1).

  Let raw c := - rtau * ds * ln (x c) * (1 - mask c) + mask c.
  Let raw' c := raw_delay_fp p rtau ds (mask c) (x c).
  Let m := reduce_min (map raw (seq 0 N)).
  Let m' := reduce_min (map raw' (seq 0 N)).

  Lemma mask_lt c : (c < n)%nat -> mask c = 0.
  Proof. intros H. rewrite HM. destruct (Nat.ltb_spec c n); [reflexivity | lia]. Qed.
  Lemma mask_ge c : (n <= c)%nat -> mask c = 1.
  Proof. intros H. rewrite HM. destruct (Nat.ltb_spec c n); [lia | reflexivity]. Qed.

  Lemma raw_lt c : (c < n)%nat ->
    0 <= raw c <= 14 * T /\ 0 <= raw' c <= 14.1 * T /\ Rabs (raw' c - raw c) <= 61.6 * u * T.
  Proof.
    intros H. unfold raw, raw'. rewrite (mask_lt c H).
    replace (- rtau * ds * ln (x c) * (1 - 0) + 0) with (T * - ln (x c)) by (unfold T; ring).
    apply raw_err, Hx, H.
  Qed.

  Lemma raw_ge c : (n <= c)%nat -> raw c = 1 /\ raw' c = 1.
  Proof. intros H. unfold raw, raw'. rewrite (mask_ge c H). split; [ring | apply raw_masked]. Qed.

  Lemma Forall2_map_seq (P : R -> R -> Prop) f g a k : (forall c, (a <= c < a + k)%nat -> P (f c) (g c)) ->
    Forall2 P (map f (seq a k)) (map g (seq a k)).
  Proof.
    revert a. induction k as [| k IH]; intros a H; cbn; constructor; [apply H; lia|]. apply IH. intros c Hc. apply H. lia.
  Qed.

  Lemma min_near : Rabs (m' - m) <= 61.6 * u * T.
  Proof.
    apply reduce_min_near; [| destruct N; [lia | discriminate]].
    apply Forall2_map_seq. intros c Hc. destruct (Nat.lt_ge_cases c n) as [L | L]; [apply raw_lt, L|].
    destruct (raw_ge c L) as [-> ->]. rewrite Rminus_eq_0, Rabs_R0. pose proof uu. pose proof T_bounds.
    apply Rmult_le_pos; [| lra]. lra.
  Qed.

  Lemma raw_nonneg c : 0 <= raw c /\ 0 <= raw' c.
  Proof.
    destruct (Nat.lt_ge_cases c n) as [L | L]; [destruct (raw_lt c L) as (? & ? & _); lra|].
    destruct (raw_ge c L). lra.
  Qed.

  Lemma m_spec : (0 <= m /\ forall c, (c < N)%nat -> m <= raw c) /\ (0 <= m' /\ forall c, (c < N)%nat -> m' <= raw' c).
  Proof.
    assert (G : forall f : nat -> R, (forall c, 0 <= f c) -> 0 <= reduce_min (map f (seq 0 N)) /\
              forall c, (c < N)%nat -> reduce_min (map f (seq 0 N)) <= f c).
    { intros f F. destruct (reduce_min_spec (map f (seq 0 N))) as [A B]; [destruct N; [lia | discriminate]|].
      split; [apply in_map_iff in A; destruct A as (c & <- & _); apply F|].
      intros c Hc. apply B, in_map, in_seq. lia. }
    split; apply G; intros c; apply raw_nonneg.
  Qed.

  Lemma unscaled_nth c : (c < n)%nat ->
    nth c (unscaled_delays N rtau ds mask x) 0 = nth c (rsort (map (fun i => raw i - m) (seq 0 n))) 0.
  Proof.
    intros Hc. unfold unscaled_delays. fold raw m. rewrite map_map.
    replace N with (n + (N - n))%nat at 1 by lia. rewrite seq_app, map_app.
    apply rsort_split; [| rewrite map_length, seq_length; exact Hc].
    intros a b Ha Hb. apply in_map_iff in Ha. apply in_map_iff in Hb.
    destruct Ha as (i & <- & Hi), Hb as (j & <- & Hj). apply in_seq in Hi. apply in_seq in Hj.
    destruct (raw_lt i ltac:(lia)) as ((_ & A) & _). destruct (raw_ge j ltac:(lia)) as [-> _].
    pose proof T_bounds. lra.
  Qed.

  Lemma unscaled_fp_nth c : (c < n)%nat ->
    nth c (unscaled_delays_fp p N rtau ds mask x) 0 = nth c (rsort (map (fun i => rnd p (raw' i - m')) (seq 0 n))) 0.
  Proof.
    intros Hc. unfold unscaled_delays_fp. fold raw' m'. rewrite map_map.
    replace N with (n + (N - n))%nat at 1 by lia. rewrite seq_app, map_app.
    apply rsort_split; [| rewrite map_length, seq_length; exact Hc].
    intros a b Ha Hb. apply in_map_iff in Ha. apply in_map_iff in Hb.
    destruct Ha as (i & <- & Hi), Hb as (j & <- & Hj). apply in_seq in Hi. apply in_seq in Hj.
    destruct (raw_lt i ltac:(lia)) as (_ & (_ & A) & _). destruct (raw_ge j ltac:(lia)) as [_ ->].
    pose proof T_bounds as TB. pose proof uu as U. destruct m_spec as [_ [M0 M1]]. specialize (M1 i ltac:(lia)).
    pose proof (near_rnd0 (raw' i - m') ltac:(lra)) as R1. pose proof (near_rnd0 (1 - m') ltac:(lra)) as R2.
    apply abs_le_inv in R1. apply abs_le_inv in R2.
    set (d := raw' i - m') in *. assert (0 <= d) by (unfold d; lra). assert (1 - m' >= d + 0.43) by (unfold d; lra).
    assert (u * d <= 0.1) by (assert (d <= 0.57) by (unfold d; lra); nra).
    assert (u * (1 - m') <= 0.1) by nra. lra.
  Qed.

  (* the delays of the active clusters *)
  Lemma delays_near c : (c < n)%nat ->
    let d := nth c (unscaled_delays N rtau ds mask x) 0 in let d' := nth c (unscaled_delays_fp p N rtau ds mask x) 0 in
    0 <= d <= 14 * T /\ 0 <= d' <= 14.2 * T /\ Rabs (d' - d) <= 138 * u * T.
  Proof.
    intros Hc d d'. unfold d, d'. rewrite unscaled_nth, unscaled_fp_nth by exact Hc.
    pose proof T_bounds as TB. pose proof uu as U. destruct m_spec as [[M0 M1] [M0' M1']].
    assert (W : forall i, (i < n)%nat -> 0 <= raw i - m <= 14 * T /\ 0 <= rnd p (raw' i - m') <= 14.2 * T /\
              Rabs (rnd p (raw' i - m') - (raw i - m)) <= 138 * u * T).
    { intros i Hi. destruct (raw_lt i Hi) as (A & A' & E). specialize (M1 i ltac:(lia)). specialize (M1' i ltac:(lia)).
      pose proof (near_rnd0 (raw' i - m') ltac:(lra)) as R. pose proof min_near as MN.
      apply abs_le_inv in R. apply abs_le_inv in E. apply abs_le_inv in MN.
      assert (UT : 0 <= u * T) by (apply Rmult_le_pos; lra).
      assert (V : u * (raw' i - m') <= u * (14.1 * T)) by (apply Rmult_le_compat_l; lra).
      assert (V2 : u * T <= T / 16777216) by nra.
      split; [lra|]. split; [split; [apply rnd_nonneg; [lra | exact p1] | lra]|]. apply Rabs_le. lra. }
    assert (LEN : forall f : nat -> R, length (map f (seq 0 n)) = n) by (intros f; rewrite map_length; apply seq_length).
    assert (IN : forall f : nat -> R, exists i, (i < n)%nat /\ nth c (rsort (map f (seq 0 n))) 0 = f i).
    { intros f. assert (I : In (nth c (rsort (map f (seq 0 n))) 0) (map f (seq 0 n))).
      { eapply Permutation_in; [apply rsort_perm|]. apply nth_In. rewrite rsort_length, LEN. exact Hc. }
      apply in_map_iff in I. destruct I as (i & E & I). apply in_seq in I. exists i. split; [lia | symmetry; exact E]. }
    split; [destruct (IN (fun i => raw i - m)) as (i & I & ->); apply W, I|].
    split; [destruct (IN (fun i => rnd p (raw' i - m'))) as (i & I & ->); apply W, I|].
    apply rsort_near; [| rewrite LEN; exact Hc]. apply Forall2_map_seq. intros i Hi. apply W. lia.
  Qed.

  Lemma delays_fp_shape : let l := unscaled_delays_fp p N rtau ds mask x in
    length l = N /\ StronglySorted Rle l /\ nth 0 l 0 = 0 /\ (forall t, In t l -> 0 <= t).
  Proof.
    cbv zeta. unfold unscaled_delays_fp. fold raw' m'. set (l := map (fun t => rnd p (t - m')) (map raw' (seq 0 N))).
    assert (S := rsort_sorted l). assert (P := rsort_perm l).
    assert (NN : forall t, In t (rsort l) -> 0 <= t).
    { intros t Ht. apply (Permutation_in _ P) in Ht. unfold l in Ht. rewrite map_map in Ht. apply in_map_iff in Ht.
      destruct Ht as (c & <- & Hc). apply in_seq in Hc. destruct m_spec as [_ [_ M]]. specialize (M c ltac:(lia)).
      apply rnd_nonneg; [lra | exact p1]. }
    split; [rewrite rsort_length; unfold l; rewrite !map_length; apply seq_length|].
    split; [exact S|]. split; [| exact NN].
    assert (Z : In 0 (rsort l)).
    { apply (Permutation_in _ (Permutation_sym P)). unfold l.
      destruct (reduce_min_spec (map raw' (seq 0 N))) as [A _]; [destruct N; [lia | discriminate]|].
      apply in_map_iff. exists m'. split; [rewrite Rminus_eq_0; apply rnd_0 | exact A]. }
    destruct (rsort l) as [| a s]; [destruct Z|]. cbn. inversion S as [| ? ? _ F]; subst. rewrite Forall_forall in F.
    assert (0 <= a) by (apply NN; left; reflexivity).
    destruct Z as [-> | Z]; [reflexivity | specialize (F 0 Z); lra].
  Qed.

  (* ---- powers ---- *)
  Context (z : nat -> R) (Hz : forall c, (c < n)%nat -> Rabs (z c) <= 7).
  Let un := unscaled_delays N rtau ds mask x.
  Let un' := unscaled_delays_fp p N rtau ds mask x.
  Let f := power_unnormalized rtau ds 3 mask z un.
  Let f' := power_fp p rtau ds 3 mask z un'.

  Lemma rate_near : near (3.2 * u) (rtau - 1) (rnd p (rnd p rtau - 1)).
  Proof.
    apply (kn_step 2); [lra | lra | lra |]. pose proof (near_rnd0 rtau ltac:(lra)) as R. pose proof uu as U.
    unfold near. replace (rnd p rtau - 1 - (rtau - 1)) with (rnd p rtau - rtau) by ring.
    apply Rle_trans with (1 := R). nra.
  Qed.

  Lemma exponent_near c : (c < n)%nat -> exists e e',
    exp (- nth c un 0 * (rtau - 1) / (rtau * ds)) = exp e /\
    rnd p (rnd p (- nth c un' 0 * rnd p (rnd p rtau - 1)) / rnd p (rnd p rtau * ds)) = e' /\
    Rabs (e' - e) <= 747 * u.
  Proof.
    intros Hc. destruct (delays_near c Hc) as (D & D' & E). fold un in D, E. fold un' in D', E.
    set (d := nth c un 0) in *. set (d' := nth c un' 0) in *. pose proof T_bounds as TB. pose proof uu as U.
    eexists _, _. split; [reflexivity|]. split; [reflexivity|]. fold T.
    pose proof scale_near as SN. pose proof rate_near as RN.
    set (b' := rnd p (rnd p rtau * ds)) in *. set (r' := rnd p (rnd p rtau - 1)) in *.
    rewrite Ropp_mult_distr_l_reverse, rnd_neg. unfold Rdiv at 1. rewrite Ropp_mult_distr_l_reverse, rnd_neg.
    assert (IT : 0 < / T) by (apply Rinv_0_lt_compat; lra).
    assert (Q : 0 <= d' * (rtau - 1)) by (apply Rmult_le_pos; lra).
    assert (K : near (7.8 * u) (d' * (rtau - 1) / T) (rnd p (rnd p (d' * r') * / b'))).
    { apply (kn_step 6.7); [apply Rmult_le_pos; lra | lra | lra |]. apply (kn_quot 4.4 2.2); try lra; [| exact SN].
      apply (kn_step 3.3); [exact Q | lra | lra |].
      apply (kn_mult 0 3.2); try lra; [apply kn_refl; lra | exact RN]. }
    set (e1 := rnd p (rnd p (d' * r') * / b')) in *.
    assert (B : 0 <= d' * (rtau - 1) / T <= 42.6).
    { split; [apply Rmult_le_pos; lra|]. apply (Rmult_le_reg_r T); [lra|].
      replace (d' * (rtau - 1) / T * T) with (d' * (rtau - 1)) by (field; lra).
      apply Rle_trans with (14.2 * T * 3); [| lra]. apply Rmult_le_compat; lra. }
    unfold near in K.
    assert (K2 : Rabs (e1 - d' * (rtau - 1) / T) <= 332.28 * u).
    { apply Rle_trans with (1 := K). replace (332.28 * u) with (7.8 * u * 42.6) by lra. apply Rmult_le_compat_l; lra. }
    assert (K3 : Rabs (d' * (rtau - 1) / T - d * (rtau - 1) / T) <= 414 * u).
    { replace (d' * (rtau - 1) / T - d * (rtau - 1) / T) with ((d' - d) * ((rtau - 1) * / T)) by (field; lra).
      rewrite Rabs_mult, (Rabs_right ((rtau - 1) * / T)) by (apply Rle_ge, Rmult_le_pos; lra).
      apply Rle_trans with (138 * u * T * ((rtau - 1) * / T)).
      - apply Rmult_le_compat_r; [apply Rmult_le_pos; lra | exact E].
      - replace (138 * u * T * ((rtau - 1) * / T)) with (138 * u * (rtau - 1)) by (field; lra). nra. }
    replace (- d * (rtau - 1) / T) with (- (d * (rtau - 1) / T)) by (field; lra).
    apply abs_le_inv in K2. apply abs_le_inv in K3. apply Rabs_le. lra.
  Qed.

  Lemma exp_factor e e' h : 0 <= h <= 1000 -> Rabs (e' - e) <= h * u -> near ((h + 0.2) * u) (exp e) (exp e').
  Proof.
    intros Hh H. pose proof uu as U. assert (HU : 0 <= h * u <= 1 / 4) by nra.
    pose proof (exp_near (h * u) HU (e' - e) H) as E. pose proof (exp_pos e) as P.
    unfold near. replace (exp e' - exp e) with (exp e * (exp (e' - e) - 1)).
    2:{ rewrite Rmult_minus_distr_l, <- exp_plus, Rmult_1_r. do 2 f_equal. ring. }
    rewrite Rabs_mult, (Rabs_right (exp e)) by lra. rewrite (Rmult_comm (exp e)).
    apply Rmult_le_compat_r; [lra|]. apply Rle_trans with (1 := E).
    assert (S : h * h * u <= 0.06).
    { apply Rle_trans with (1000 * 1000 * (1 / 16777216)); [| lra]. apply Rmult_le_compat; try nra. }
    nra.
  Qed.

  Lemma shadow_near c : (c < n)%nat ->
    near (11.5 * u) (pow10 (- (3 * z c) / 10)) (rnd p (pow10 (rnd p (- shadow_fp p 3 (z c) / 10)))).
  Proof.
    intros Hc. specialize (Hz c Hc). pose proof uu as U.
    assert (E3 : rnd p 3 = 3).
    { pose proof (rnd_grid p 0 3 p1) as G. replace (IZR 3 * powerRZ 2 0) with 3 in G by (simpl; ring).
      apply G. split; [lia|]. apply Z.le_trans with (2 ^ 2)%Z; [lia | apply Z.pow_le_mono_r; lia]. }
    unfold shadow_fp. rewrite E3, Rplus_0_r, rnd_idem by exact p1. set (s := z c * 3).
    assert (S0 : Rabs s <= 21) by (unfold s; rewrite Rabs_mult, (Rabs_right 3) by lra; lra).
    pose proof (rnd_rel s) as R1. assert (R1' : Rabs (rnd p s - s) <= 21 * u) by nra.
    pose proof (rnd_rel (- rnd p s / 10)) as R2.
    apply abs_le_inv in S0. apply abs_le_inv in R1'.
    assert (B : Rabs (- rnd p s / 10) <= 2.11) by (apply Rabs_le; nra).
    assert (R2' : Rabs (rnd p (- rnd p s / 10) - - rnd p s / 10) <= 2.11 * u) by nra. apply abs_le_inv in R2'.
    assert (PP := pow10_pos (- (3 * z c) / 10)).
    apply (kn_step 10.4); [lra | lra | lra |].
    apply (kn_weaken (10.1 + 0.2)); [lra | lra |]. unfold pow10, Rpower. apply exp_factor; [lra|].
    pose proof ln10_le as L1. pose proof ln10_pos as L0.
    replace (rnd p (- rnd p s / 10) * ln 10 - - (3 * z c) / 10 * ln 10)
      with ((rnd p (- rnd p s / 10) - - s / 10) * ln 10) by (unfold s; field).
    rewrite Rabs_mult, (Rabs_right (ln 10)) by lra.
    apply Rle_trans with (4.22 * u * (14 / 6)); [| lra].
    apply Rmult_le_compat; [apply Rabs_pos | lra | apply Rabs_le; lra | exact L1].
  Qed.

  Lemma unnormalized_near c : (c < n)%nat -> 0 < f c /\ near (762 * u) (f c) (f' c).
  Proof.
    intros Hc. destruct (exponent_near c Hc) as (e & e' & X & Y & E). unfold f, f', power_unnormalized, power_fp.
    rewrite (mask_lt c Hc), Rminus_0_r, rnd_1, !Rmult_1_r, rnd_idem by exact p1.
    fold un' in Y. rewrite X, Y. pose proof (exp_pos e) as P1. pose proof (pow10_pos (- (3 * z c) / 10)) as P2.
    assert (P : 0 < exp e * pow10 (- (3 * z c) / 10)) by (apply Rmult_lt_0_compat; assumption). split; [exact P|].
    apply (kn_step 760.5); [lra | lra | lra |]. apply (kn_mult 748.8 11.5); try lra; [| apply shadow_near; exact Hc].
    apply (kn_step 747.2); [lra | lra | lra |]. replace 747.2 with (747 + 0.2) by lra. apply exp_factor; [lra | exact E].
  Qed.

  Lemma unnormalized_masked c : (n <= c)%nat -> f c = 0 /\ f' c = 0.
  Proof.
    intros Hc. unfold f, f', power_unnormalized, power_fp. rewrite (mask_ge c Hc), Rminus_eq_0, rnd_0, !Rmult_0_r.
    split; [reflexivity | apply rnd_0].
  Qed.

  Lemma unnormalized_all c : 0 <= f c /\ 0 <= f' c /\ near (762 * u) (f c) (f' c).
  Proof.
    destruct (Nat.lt_ge_cases c n) as [H | H].
    - destruct (unnormalized_near c H) as [P Q]. split; [lra|]. split; [apply (kn_nonneg 762 (f c)); [lra | lra | exact Q] | exact Q].
    - destruct (unnormalized_masked c H) as [-> ->]. split; [lra|]. split; [lra|]. unfold near. rewrite Rminus_0_r, Rabs_R0. lra.
  Qed.

  Context (t : sum_order) (Ht : Permutation (terms t) (seq 0 N)) (HN4 : (N <= 4)%nat).

  Lemma total_near : let S := Rsum (map f (seq 0 N)) in let S1 := Rsum (map f' (seq 0 N)) in let S' := sum_fp p f' t in
    0 < S /\ 0 < S1 /\ near (4.1 * u) S1 S' /\ near (767 * u) S S'.
  Proof.
    cbv zeta. set (S := Rsum (map f (seq 0 N))). set (S1 := Rsum (map f' (seq 0 N))).
    assert (SP : 0 < S).
    { apply Rsum_pos.
      - intros y Hy. apply in_map_iff in Hy. destruct Hy as (c & <- & _). apply unnormalized_all.
      - exists (f 0%nat). split; [apply in_map, in_seq; lia | apply unnormalized_near; lia]. }
    assert (A : near (762 * u) S S1) by (apply near_sum; intros c _; apply unnormalized_all).
    assert (S1P : 0 < S1) by (apply (kn_pos 762 S); [exact SP | lra | exact A]).
    assert (L : length (terms t) = N) by (rewrite (Permutation_length Ht); apply seq_length).
    assert (B : near (4.1 * u) S1 (sum_fp p f' t)).
    { unfold S1. rewrite <- (Rsum_perm _ _ (Permutation_map f' Ht)).
      assert (L4 : INR (length (terms t)) <= 4).
      { rewrite L. replace 4 with (INR 4) by (rewrite INR_IZR_INZ; reflexivity). apply le_INR. exact HN4. }
      pose proof (pos_INR (length (terms t))).
      apply (kn_weaken (1.01 * INR (length (terms t)))); [| lra | apply sum_fp_near; [| lia]].
      - rewrite (Rsum_perm _ _ (Permutation_map f' Ht)). fold S1. lra.
      - intros c _. apply unnormalized_all. }
    split; [exact SP|]. split; [exact S1P|]. split; [exact B|].
    apply (kn_trans 762 4.1 767 S S1); try lra; assumption.
  Qed.

  Lemma powers_near : exists q q',
    cluster_powers N rtau ds 3 mask z un = Some q /\ cluster_powers_fp p N rtau ds 3 mask z un' t = Some q' /\
    length q' = N /\ (forall c, Rabs (nth c q' 0 - nth c q 0) <= 1600 * u * nth c q 0) /\
    Rabs (Rsum q' - 1) <= 8 * u.
  Proof.
    destruct total_near as (SP & S1P & NS1 & NS). pose proof uu as U.
    set (S := Rsum (map f (seq 0 N))) in *. set (S1 := Rsum (map f' (seq 0 N))) in *. set (S' := sum_fp p f' t) in *.
    assert (S'P : 0 < S') by (apply (kn_pos 767 S); [exact SP | lra | exact NS]).
    unfold cluster_powers, cluster_powers_fp, normalize. fold f f'. fold S S'.
    destruct (Req_EM_T S 0) as [E | _]; [lra|]. destruct (Req_EM_T S' 0) as [E | _]; [lra|].
    eexists _, _. split; [reflexivity|]. split; [reflexivity|].
    split; [rewrite map_length; apply seq_length|].
    rewrite map_map. split.
    - intros c. destruct (Nat.lt_ge_cases c N) as [H | H].
      + rewrite (nth_map_seq (fun c => rnd p (f' c / S')) N c H), (nth_map_seq (fun c => f c / S) N c H).
        destruct (unnormalized_all c) as (F0 & F0' & FN).
        assert (Q : 0 <= f c / S) by (apply Rmult_le_pos; [exact F0 | left; apply Rinv_0_lt_compat, SP]).
        apply (kn_step 1530); [exact Q | lra | lra |]. apply (kn_quot 762 767); try lra; assumption.
      + rewrite !nth_overflow by (rewrite map_length, seq_length; exact H).
        rewrite Rminus_0_r, Rabs_R0. lra.
    - assert (A : near (1 * u) (Rsum (map (fun c => f' c / S') (seq 0 N))) (Rsum (map (fun c => rnd p (f' c / S')) (seq 0 N)))).
      { apply near_sum. intros c _. apply kn_rnd. destruct (unnormalized_all c) as (_ & F0' & _).
        apply Rmult_le_pos; [exact F0' | left; apply Rinv_0_lt_compat, S'P]. }
      rewrite <- (map_map f' (fun q => q / S')), Rsum_map_div in A. fold S1 in A.
      assert (B : near (4.2 * u) 1 (S1 / S')).
      { replace 1 with (S1 / S1) by (field; lra). apply (kn_quot 0 4.1); try lra; [apply kn_refl; lra | exact NS1]. }
      assert (C : near (8 * u) 1 (Rsum (map (fun c => rnd p (f' c / S')) (seq 0 N)))).
      { apply (kn_trans 4.2 1 8 1 (S1 / S')); try lra; assumption. }
      unfold near in C. lra.
  Qed.
End Accuracy.

Lemma C102_l : forall sc st a dr st' mask srt lsps d rr p,
  constructed sc -> set_topology sc st a dr = (st', Ok true) ->
  compute_clusters_mask st' = Ok mask -> gen_rays srt st' mask lsps d = Ok rr -> (24 <= p)%Z ->
  exists los ind n1 n2, s_los st' = Some los /\ s_in st' = Some ind /\
    (forall l, documented_value (sc_env sc) (sc_fc sc) (sc_dir sc) (sc_elev sc) l "numClusters"
                 (Fin (INR (if l then n1 else n2)))) /\
    forall b s u, t_at ind b u = false ->
      (los b s u = true -> Rpower 10 (- 6.3) <= l_k (lsps b s u)) ->
      0 < l_ds (lsps b s u) <= 0.01 ->
      (forall c, 1 / 10 ^ 6 <= rd_x d b s u c <= 1) -> (forall c, Rabs (rd_shadow d b s u c) <= 7) ->
      exists r rtau zeta, rr b s u = Some r /\
        documented_value (sc_env sc) (sc_fc sc) (sc_dir sc) (sc_elev sc) (los b s u) "rTau" (Fin rtau) /\
        documented_value (sc_env sc) (sc_fc sc) (sc_dir sc) (sc_elev sc) (los b s u) "zeta" (Fin zeta) /\
        let N := length (r_powers r) in
        let un := unscaled_delays_fp p N rtau (l_ds (lsps b s u)) (mask b s u) (rd_x d b s u) in
        let scale := if los b s u then los_scale (l_k (lsps b s u)) else 1 in
        N = Nat.max n1 n2 /\ length un = N /\ StronglySorted Rle un /\ nth 0 un 0 = 0 /\
        (forall c, (c < if los b s u then n1 else n2)%nat ->
           Rabs (nth c un 0 - scale * nth c (r_delays r) 0) <= 138 * powerRZ 2 (- p) * (rtau * l_ds (lsps b s u))) /\
        forall t, Permutation (terms t) (seq 0 N) -> exists q,
          cluster_powers_fp p N rtau (l_ds (lsps b s u)) zeta (mask b s u) (rd_shadow d b s u) un t = Some q /\
          length q = N /\ Rabs (Rsum q - 1) <= 8 * powerRZ 2 (- p) /\
          forall c, Rabs (nth c q 0 - nth c (r_powers r) 0) <= 1600 * powerRZ 2 (- p) * nth c (r_powers r) 0.
Proof.
  intros sc st a dr st' mask srt lsps d rr p Hc H HM HG Hp.
  destruct (make_ready _ _ _ _ _ Hc H) as (ls & los & g & ind & bs & mask' & R).
  assert (mask' = mask) by (assert (E := rd_mask _ _ _ _ _ _ _ _ R); congruence). subst mask'.
  exists los, ind, (n_clusters ls true), (n_clusters ls false). split; [apply R|]. split; [apply R|].
  split; [intros l; destruct (rd_nc _ _ _ _ _ _ _ _ R l) as [_ D]; destruct l; exact D|].
  intros b s u Hi HK Hds Hx Hz.
  destruct (link_rays_outdoor _ _ _ _ _ _ _ _ _ _ _ _ b s u R HG Hi) as (r & Hr & D & P & M & N).
  set (lp := ls_col ls (los b s u)) in *. set (ds := l_ds (lsps b s u)) in *.
  destruct (rd_col _ _ _ _ _ _ _ _ R (los b s u)) as [DC GC]. fold lp in DC, GC.
  pose proof (gc_rTau _ _ GC) as RT. pose proof (gc_zeta _ _ GC) as ZT. rewrite ZT in P.
  assert (N4 : (num_clusters_max ls <= 4)%nat).
  { pose proof (rd_nc _ _ _ _ _ _ _ _ R true) as [X _]. pose proof (rd_nc _ _ _ _ _ _ _ _ R false) as [Y _].
    unfold num_clusters_max. lia. }
  assert (NE : (if los b s u then n_clusters ls true else n_clusters ls false) = n_clusters ls (los b s u)) by (destruct (los b s u); reflexivity).
  assert (Hx' : forall c, (c < n_clusters ls (los b s u))%nat -> / 10 ^ 6 <= rd_x d b s u c <= 1).
  { intros c _. specialize (Hx c). unfold Rdiv in Hx. rewrite Rmult_1_l in Hx. exact Hx. }
  assert (LP : length (r_powers r) = num_clusters_max ls).
  { unfold cluster_powers, normalize in P. destruct (Req_EM_T _ 0); [discriminate|]. injection P as <-.
    rewrite !map_length. apply seq_length. }
  exists r, (lp_rTau lp), 3. split; [exact Hr|].
  split; [unfold documented_column in DC; tauto|].
  split; [rewrite <- ZT; unfold documented_column in DC; tauto|].
  cbv zeta. rewrite LP, NE.
  destruct (delays_fp_shape p Hp (lp_rTau lp) ds RT Hds (n_clusters ls (los b s u)) (num_clusters_max ls) N _ _ M Hx') as (L & S & Z & _).
  split; [reflexivity|]. split; [exact L|]. split; [exact S|]. split; [exact Z|]. split.
  - intros c Hcn.
    destruct (delays_near p Hp (lp_rTau lp) ds RT Hds (n_clusters ls (los b s u)) (num_clusters_max ls) N _ _ M Hx' c Hcn) as (_ & _ & E).
    rewrite D. unfold cluster_delays. destruct (los b s u) eqn:EL.
    + assert (SP := delay_scaling_pos _ (HK eq_refl)). rewrite nth_map_div, <- los_scale_eq.
      match goal with |- Rabs (?A - ?B * (?C / ?B)) <= _ => replace (A - B * (C / B)) with (A - C) by (field; lra) end. exact E.
    + rewrite Rmult_1_l. exact E.
  - intros t Ht.
    destruct (powers_near p Hp (lp_rTau lp) ds RT Hds (n_clusters ls (los b s u)) (num_clusters_max ls) N _ _ M Hx' _ (fun c _ => Hz c) t Ht N4)
      as (q & q' & Q & Q' & LQ & A & B).
    rewrite P in Q. injection Q as Q. exists q'. split; [exact Q'|]. split; [exact LQ|]. split; [exact B|].
    intros c. rewrite Q. apply A.
Qed.

(* the bounds in the two precisions of TensorFlow *)
Lemma C102_single_l : 1600 * powerRZ 2 (- 24) <= / 10 ^ 4 /\ 8 * powerRZ 2 (- 24) <= 5 / 10 ^ 7 /\
  138 * powerRZ 2 (- 24) <= 9 / 10 ^ 6 /\ 1600 * powerRZ 2 (- 53) <= 2 / 10 ^ 13.
Proof. simpl. repeat split; lra. Qed.

(* a call with draws that are not all alike, and an order of summation *)
Lemma C102_example_l : exists sc a dr st' mask los ind d rr, constructed sc /\
  set_topology sc (init_state sc) a dr = (st', Ok true) /\ compute_clusters_mask st' = Ok mask /\
  s_los st' = Some los /\ los 0%nat 0%nat 0%nat = true /\ s_in st' = Some ind /\ t_at ind 0%nat 0%nat = false /\
  exists lsps, gen_rays argsort st' mask lsps d = Ok rr /\
  Rpower 10 (- 6.3) <= l_k (lsps 0%nat 0%nat 0%nat) /\ 0 < l_ds (lsps 0%nat 0%nat 0%nat) <= 0.01 /\
  (forall c, 1 / 10 ^ 6 <= rd_x d 0%nat 0%nat 0%nat c <= 1) /\ rd_x d 0%nat 0%nat 0%nat 0%nat <> rd_x d 0%nat 0%nat 0%nat 1%nat /\
  (forall c, Rabs (rd_shadow d 0%nat 0%nat 0%nat c) <= 7).
Proof.
  destruct example_constructed as (sc & Hc & _).
  destruct (one_ut_call sc (V3 600000 0 0) false (Some true) no_draws Hc) as (st' & H & _ & _ & I).
  destruct (one_ut_los sc _ true _ st' Hc H) as (los & L1 & L2).
  destruct (make_ready _ _ _ _ _ Hc H) as (ls & los' & g & ind & bs & mask & R).
  set (d := plain_draws (fun c => if Nat.eqb c 0 then / 2 else / 4)).
  set (lsps := fun _ _ _ : nat => {| l_ds := 1 / 10 ^ 7; l_asd := 1; l_asa := 1; l_sf := 1; l_k := 1; l_zsa := 1; l_zsd := 1 |}).
  exists sc, (one_ut (V3 600000 0 0) false (Some true)), no_draws, st', mask, los, ind, d. eexists.
  split; [exact Hc|]. split; [exact H|]. split; [apply R|]. split; [exact L1|]. split; [exact L2|].
  split; [apply R|]. split.
  { assert (E := rd_in _ _ _ _ _ _ _ _ R). assert (ind = T 1 1 (fun _ _ => false)) by congruence. subst ind. reflexivity. }
  exists lsps. split; [exact (gen_ready _ _ _ _ _ _ _ _ argsort lsps d R)|].
  split; [exact k_one_ok|]. cbn [lsps l_ds d plain_draws rd_x rd_shadow Nat.eqb].
  split; [lra|]. split; [intros c; destruct (Nat.eqb c 0); lra|]. split; [lra|].
  intros c. rewrite Rabs_R0. lra.
Qed.

Lemma C102_order_l : Permutation (terms (Plus (Term 0) (Plus (Term 2) (Term 1)))) (seq 0 3) /\
  let f c := if Nat.eqb c 0 then 1 else 1 / 6 in
  sum_fp 2 f (Plus (Plus (Term 0) (Term 1)) (Term 2)) = 1 /\ sum_fp 2 f (Plus (Term 0) (Plus (Term 1) (Term 2))) = 1.5.
Proof.
  split; [cbn; apply perm_skip, perm_swap|]. cbv zeta. cbn [sum_fp Nat.eqb].
  assert (G : forall y n, 1 <= y < 2 -> Rabs (y * 2 - IZR n) < 1 / 2 -> rnd 2 y = IZR n / 2).
  { intros y n Y E. assert (M : mag y = 0%Z) by (apply mag_unique; simpl; lra).
    rewrite rnd_pos_eq by lra. unfold ulp. rewrite M.
    assert (V : powerRZ 2 (0 - (2 - 1)) = / 2) by (simpl; lra). rewrite V, (nearest_unique _ n); [lra|].
    replace (y / / 2) with (y * 2) by field. exact E. }
  assert (A : rnd 2 (1 + 1 / 6) = 1) by (rewrite (G _ 2%Z); [lra | lra | apply Rabs_def1; lra]).
  split; [rewrite A; exact A|].
  replace (1 / 6 + 1 / 6) with (1 / 3) by lra. rewrite rnd_example.
  rewrite (G _ 3%Z); [lra | lra | apply Rabs_def1; lra].
Qed.
