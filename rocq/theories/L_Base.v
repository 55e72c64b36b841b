(* Lemmas about the primitives of M_Base. *)
From Coq Require Import Reals String List Bool Arith Lia Lra ZArith Psatz.
From Coq Require Import Permutation Sorting.Sorted.
From Verif Require Import M_Base.
Import ListNotations.
Open Scope R_scope.

(* ---- boolean comparisons ---- *)
Lemma Rltb_true x y : Rltb x y = true <-> x < y.
Proof. unfold Rltb; destruct (Rlt_dec x y); split; intros; auto; discriminate. Qed.
Lemma Rltb_false x y : Rltb x y = false <-> y <= x.
Proof. unfold Rltb; destruct (Rlt_dec x y); split; intros; try discriminate; auto; lra. Qed.
Lemma Rleb_true x y : Rleb x y = true <-> x <= y.
Proof. unfold Rleb; destruct (Rle_dec x y); split; intros; auto; discriminate. Qed.
Lemma Rleb_false x y : Rleb x y = false <-> y < x.
Proof. unfold Rleb; destruct (Rle_dec x y); split; intros; try discriminate; auto; lra. Qed.
Lemma Reqb_true x y : Reqb x y = true <-> x = y.
Proof. unfold Reqb; destruct (Req_EM_T x y); split; intros; auto; discriminate. Qed.
Lemma Reqb_false x y : Reqb x y = false <-> x <> y.
Proof. unfold Reqb; destruct (Req_EM_T x y); split; intros; try discriminate; auto; contradiction. Qed.

(* ---- floor ---- *)
Lemma floor_bounds x : IZR (Int_part x) <= x < IZR (Int_part x) + 1.
Proof. destruct (base_Int_part x). lra. Qed.

Lemma floor_unique x n : IZR n <= x < IZR n + 1 -> Int_part x = n.
Proof.
  intros [H1 H2]. destruct (floor_bounds x) as [H3 H4].
  assert (A : (Int_part x < n + 1)%Z) by (apply lt_IZR; rewrite plus_IZR; lra).
  assert (B : (n < Int_part x + 1)%Z) by (apply lt_IZR; rewrite plus_IZR; lra).
  lia.
Qed.

Lemma fmod_range x m : 0 < m -> 0 <= fmod x m < m.
Proof.
  intros Hm. unfold fmod. destruct (floor_bounds (x / m)) as [H1 H2].
  assert (E : x = m * (x / m)) by (field; lra).
  split.
  - apply Rmult_le_compat_l with (r := m) in H1; lra.
  - apply Rmult_lt_compat_l with (r := m) in H2; lra.
Qed.

Lemma fmod_congr x m : exists k : Z, fmod x m = x - m * IZR k.
Proof. exists (Int_part (x / m)). reflexivity. Qed.

Lemma fmod_id x m : 0 <= x < m -> fmod x m = x.
Proof.
  intros [H1 H2]. unfold fmod.
  rewrite (floor_unique (x / m) 0); [simpl; lra|].
  simpl. assert (0 < m) by lra. split.
  - apply Rmult_le_pos; [lra|]. left; apply Rinv_0_lt_compat; lra.
  - rewrite Rplus_0_l. apply Rmult_lt_reg_r with m; [lra|].
    unfold Rdiv; rewrite Rmult_assoc, Rinv_l; lra.
Qed.

Lemma fmod_unique x m r k : 0 < m -> 0 <= r < m -> x = r + m * IZR k -> fmod x m = r.
Proof.
  intros Hm Hr E. unfold fmod.
  rewrite (floor_unique (x / m) k); [lra|].
  subst x. replace ((r + m * IZR k) / m) with (r / m + IZR k) by (field; lra).
  assert (0 <= r / m) by (apply Rmult_le_pos; [lra|]; left; apply Rinv_0_lt_compat; lra).
  assert (r / m < 1).
  { apply Rmult_lt_reg_r with m; [lra|]. unfold Rdiv; rewrite Rmult_assoc, Rinv_l; lra. }
  lra.
Qed.

(* ---- sums ---- *)
Lemma Rsum_app l1 l2 : Rsum (l1 ++ l2) = Rsum l1 + Rsum l2.
Proof. induction l1; simpl; lra. Qed.

Lemma Rsum_perm l1 l2 : Permutation l1 l2 -> Rsum l1 = Rsum l2.
Proof. induction 1; simpl; lra. Qed.

Lemma Rsum_nonneg l : (forall x, In x l -> 0 <= x) -> 0 <= Rsum l.
Proof.
  induction l as [|a l IH]; simpl; intros H; [lra|].
  assert (0 <= a) by (apply H; auto). assert (0 <= Rsum l) by (apply IH; auto). lra.
Qed.

Lemma Rsum_pos l : (forall x, In x l -> 0 <= x) -> (exists x, In x l /\ 0 < x) -> 0 < Rsum l.
Proof.
  induction l as [|a l IH]; simpl; intros H [x [Hx Px]]; [contradiction|].
  assert (0 <= a) by (apply H; auto).
  assert (0 <= Rsum l) by (apply Rsum_nonneg; auto).
  destruct Hx as [->|Hx]; [lra|].
  assert (0 < Rsum l) by (apply IH; eauto). lra.
Qed.

Lemma Rsum_scale k l : Rsum (map (fun x => k * x) l) = k * Rsum l.
Proof. induction l; simpl; lra. Qed.

Lemma Rsum_map_div l k : Rsum (map (fun x => x / k) l) = Rsum l / k.
Proof.
  induction l as [|a l IH]; simpl; [unfold Rdiv; lra|].
  rewrite IH. unfold Rdiv. lra.
Qed.

Lemma Rsum_le_elem l x : (forall y, In y l -> 0 <= y) -> In x l -> x <= Rsum l.
Proof.
  induction l as [|a l IH]; simpl; intros H Hx; [contradiction|].
  assert (0 <= a) by (apply H; auto).
  assert (0 <= Rsum l) by (apply Rsum_nonneg; auto).
  destruct Hx as [->|Hx]; [lra|]. specialize (IH (fun y Hy => H y (or_intror Hy)) Hx). lra.
Qed.

Lemma Rsum_const {A} (l : list A) c : Rsum (map (fun _ => c) l) = INR (length l) * c.
Proof.
  induction l as [|a l IH]; simpl length; simpl map; simpl Rsum; [simpl; lra|].
  rewrite IH, S_INR. lra.
Qed.

Lemma Rsum_plus {A} (l : list A) f g :
  Rsum (map (fun x => f x + g x) l) = Rsum (map f l) + Rsum (map g l).
Proof. induction l; simpl; lra. Qed.

Lemma Rsum_ext {A} (l : list A) f g :
  (forall x, In x l -> f x = g x) -> Rsum (map f l) = Rsum (map g l).
Proof. intros H. f_equal. apply map_ext_in, H. Qed.

Lemma sumR_ext n f g : (forall k, (k < n)%nat -> f k = g k) -> sumR n f = sumR n g.
Proof.
  induction n; simpl; intros H; auto. rewrite IHn by (intros; apply H; lia).
  now rewrite H by lia.
Qed.

Lemma sumR_plus n f g : sumR n (fun k => f k + g k) = sumR n f + sumR n g.
Proof. induction n; simpl; lra. Qed.

Lemma sumR_scale n c f : sumR n (fun k => c * f k) = c * sumR n f.
Proof. induction n; simpl; lra. Qed.

Lemma sumR_opp n f : sumR n (fun k => - f k) = - sumR n f.
Proof. induction n; simpl; lra. Qed.

Lemma sumR_minus n f g : sumR n (fun k => f k - g k) = sumR n f - sumR n g.
Proof. induction n; simpl; lra. Qed.

Lemma sumR_const n c : sumR n (fun _ => c) = INR n * c.
Proof. induction n; simpl sumR; [simpl; lra|]. rewrite S_INR, IHn; lra. Qed.

Lemma sumR_nonneg n f : (forall k, (k < n)%nat -> 0 <= f k) -> 0 <= sumR n f.
Proof.
  induction n; simpl; intros H; [lra|].
  assert (0 <= f n) by (apply H; lia). assert (0 <= sumR n f) by (apply IHn; intros; apply H; lia).
  lra.
Qed.

Lemma sumR_le n f g : (forall k, (k < n)%nat -> f k <= g k) -> sumR n f <= sumR n g.
Proof.
  induction n; simpl; intros H; [lra|].
  assert (f n <= g n) by (apply H; lia).
  assert (sumR n f <= sumR n g) by (apply IHn; intros; apply H; lia). lra.
Qed.

Lemma sumR_swap n m f :
  sumR n (fun i => sumR m (fun j => f i j)) = sumR m (fun j => sumR n (fun i => f i j)).
Proof.
  induction n; simpl.
  - induction m; simpl; lra.
  - rewrite IHn, <- sumR_plus. reflexivity.
Qed.

Lemma sumR_shift n f : sumR (S n) f = f 0%nat + sumR n (fun k => f (S k)).
Proof.
  induction n; [simpl; lra|].
  change (sumR (S (S n)) f) with (sumR (S n) f + f (S n)). rewrite IHn. simpl. lra.
Qed.

Lemma sumR_rev n f : sumR n f = sumR n (fun k => f (n - 1 - k)%nat).
Proof.
  induction n; [reflexivity|].
  rewrite (sumR_shift n (fun k => f (S n - 1 - k)%nat)).
  change (sumR (S n) f) with (sumR n f + f n). rewrite IHn.
  rewrite (sumR_ext n (fun k => f (n - 1 - k)%nat) (fun k => f (S n - 1 - S k)%nat))
    by (intros k Hk; f_equal; lia).
  replace (S n - 1 - 0)%nat with n by lia. ring.
Qed.

Lemma sumR_split n m f : sumR (n + m) f = sumR n f + sumR m (fun k => f (n + k)%nat).
Proof.
  induction m; simpl.
  - rewrite Nat.add_0_r. lra.
  - rewrite Nat.add_succ_r. simpl. rewrite IHm. lra.
Qed.

Lemma Rsum_seq n f : Rsum (map f (seq 0 n)) = sumR n f.
Proof.
  induction n; [reflexivity|].
  rewrite seq_S, map_app, Rsum_app, IHn. simpl. lra.
Qed.

Lemma sumR_single n f k : (k < n)%nat -> (forall j, (j < n)%nat -> j <> k -> f j = 0) ->
  sumR n f = f k.
Proof.
  induction n; intros Hk H; [lia|]. simpl.
  destruct (Nat.eq_dec k n) as [->|Hne].
  - rewrite (sumR_ext n f (fun _ => 0)).
    + rewrite sumR_const. lra.
    + intros j Hj. apply H; lia.
  - rewrite IHn; [|lia|intros; apply H; lia]. rewrite (H n); [lra|lia|lia].
Qed.

Lemma sumR_zero n f : (forall k, (k < n)%nat -> f k = 0) -> sumR n f = 0.
Proof. intros H. rewrite (sumR_ext n f (fun _ => 0)) by auto. rewrite sumR_const. lra. Qed.

(* ---- min / max over lists ---- *)
Lemma list_max_ge x l y : In y (x :: l) -> y <= list_max x l.
Proof.
  unfold list_max. revert x; induction l as [|a l IH]; simpl; intros x H.
  - destruct H as [->|[]]; lra.
  - destruct H as [->|[->|H]].
    + eapply Rle_trans; [apply (IH y); simpl; auto | apply Rmax_r].
    + apply Rmax_l.
    + eapply Rle_trans; [apply (IH x); simpl; auto | apply Rmax_r].
Qed.

Lemma list_max_in x l : In (list_max x l) (x :: l).
Proof.
  unfold list_max. induction l as [|a l IH]; simpl; auto.
  destruct (Rle_dec a (fold_right Rmax x l)) as [H|H].
  - rewrite Rmax_right by auto. simpl in IH. tauto.
  - rewrite Rmax_left by lra. auto.
Qed.

Lemma list_min_le x l y : In y (x :: l) -> list_min x l <= y.
Proof.
  unfold list_min. revert x; induction l as [|a l IH]; simpl; intros x H.
  - destruct H as [->|[]]; lra.
  - destruct H as [->|[->|H]].
    + eapply Rle_trans; [apply Rmin_r|apply (IH y); simpl; auto].
    + apply Rmin_l.
    + eapply Rle_trans; [apply Rmin_r|apply (IH x); simpl; auto].
Qed.

Lemma list_min_in x l : In (list_min x l) (x :: l).
Proof.
  unfold list_min. induction l as [|a l IH]; simpl; auto.
  destruct (Rle_dec a (fold_right Rmin x l)) as [H|H].
  - rewrite Rmin_left by auto. auto.
  - rewrite Rmin_right by lra. simpl in IH. tauto.
Qed.

(* ---- pow10 / log10 ---- *)
Lemma ln10_pos : 0 < ln 10.
Proof. rewrite <- ln_1. apply ln_increasing; lra. Qed.

Lemma pow10_pos x : 0 < pow10 x.
Proof. unfold pow10, Rpower. apply exp_pos. Qed.

Lemma pow10_plus x y : pow10 (x + y) = pow10 x * pow10 y.
Proof. unfold pow10. apply Rpower_plus. Qed.

Lemma pow10_0 : pow10 0 = 1.
Proof. unfold pow10. apply Rpower_O. lra. Qed.

Lemma pow10_opp x : pow10 (- x) = / pow10 x.
Proof. unfold pow10. apply Rpower_Ropp. Qed.

Lemma pow10_log10 x : 0 < x -> pow10 (log10 x) = x.
Proof.
  intros H. unfold pow10, log10, Rpower.
  replace (ln x / ln 10 * ln 10) with (ln x) by (field; apply Rgt_not_eq, ln10_pos).
  apply exp_ln, H.
Qed.

Lemma log10_pow10 x : log10 (pow10 x) = x.
Proof.
  unfold pow10, log10, Rpower. rewrite ln_exp. field. apply Rgt_not_eq, ln10_pos.
Qed.

Lemma pow10_increasing x y : x < y -> pow10 x < pow10 y.
Proof.
  intros H. unfold pow10, Rpower. apply exp_increasing.
  apply Rmult_lt_compat_r; [apply ln10_pos | exact H].
Qed.

Lemma pow10_le x y : x <= y -> pow10 x <= pow10 y.
Proof. intros [H| ->]; [left; apply pow10_increasing, H | lra]. Qed.

Lemma log10_increasing x y : 0 < x -> x < y -> log10 x < log10 y.
Proof.
  intros H1 H2. unfold log10. apply Rmult_lt_compat_r.
  - apply Rinv_0_lt_compat, ln10_pos.
  - apply ln_increasing; auto.
Qed.

Lemma log10_mult x y : 0 < x -> 0 < y -> log10 (x * y) = log10 x + log10 y.
Proof. intros. unfold log10. rewrite ln_mult by auto. lra. Qed.

Lemma log10_10 : log10 10 = 1.
Proof. unfold log10. field. apply Rgt_not_eq, ln10_pos. Qed.

Lemma log10_1 : log10 1 = 0.
Proof. unfold log10. rewrite ln_1. lra. Qed.

(* ---- sorting ---- *)
Lemma ins_idx_perm l i s : Permutation (ins_idx l i s) (i :: s).
Proof.
  induction s as [|j s IH]; simpl; auto.
  destruct (Rle_dec (key l i) (key l j)); auto.
  etransitivity; [apply perm_skip, IH|]. apply perm_swap.
Qed.

Lemma ins_idx_sorted l i s :
  StronglySorted Rle (map (key l) s) -> StronglySorted Rle (map (key l) (ins_idx l i s)).
Proof.
  induction s as [|j s IH]; simpl; intros H.
  - constructor; constructor.
  - inversion H as [|? ? Hs Hf]; subst.
    destruct (Rle_dec (key l i) (key l j)) as [Hle|Hgt]; simpl.
    + constructor; auto. constructor; auto.
      eapply Forall_impl; [|exact Hf]. intros a Ha; simpl in *; lra.
    + constructor; [apply IH, Hs|].
      apply Forall_forall. intros x Hx. apply in_map_iff in Hx.
      destruct Hx as [k [<- Hk]].
      apply (Permutation_in k (ins_idx_perm l i s)) in Hk.
      destruct Hk as [<-|Hk]; [lra|].
      rewrite Forall_forall in Hf. apply Hf, in_map, Hk.
Qed.

Lemma argsort_valid : valid_argsort argsort.
Proof.
  intros l. unfold argsort. split.
  - induction (seq 0 (length l)) as [|i s IH]; simpl; auto.
    etransitivity; [apply ins_idx_perm|]. auto.
  - induction (seq 0 (length l)) as [|i s IH]; simpl.
    + constructor.
    + apply ins_idx_sorted, IH.
Qed.

Lemma SS_map_opp (l : list R) (idx : list nat) :
  StronglySorted Rle (map (key (map Ropp l)) idx) ->
  (forall i, In i idx -> (i < length l)%nat) ->
  StronglySorted (fun x y => y <= x) (map (key l) idx).
Proof.
  induction idx as [|i idx IH]; simpl; intros H Hin; [constructor|].
  inversion H as [|? ? Hs Hf]; subst.
  constructor; [apply IH; auto|].
  apply Forall_forall. intros x Hx. apply in_map_iff in Hx. destruct Hx as [j [<- Hj]].
  rewrite Forall_forall in Hf.
  specialize (Hf (key (map Ropp l) j) (in_map _ _ _ Hj)).
  unfold key in *.
  assert (Hi := Hin i (or_introl eq_refl)). assert (Hjl := Hin j (or_intror Hj)).
  rewrite (nth_indep (map Ropp l) 0 (Ropp 0)) in Hf by (rewrite map_length; auto).
  rewrite (nth_indep (map Ropp l) 0 (Ropp 0)) in Hf by (rewrite map_length; auto).
  rewrite !map_nth in Hf. lra.
Qed.

Lemma argsort_desc_valid : valid_argsort_desc argsort_desc.
Proof.
  intros l. unfold argsort_desc.
  destruct (argsort_valid (map Ropp l)) as [P S]. rewrite map_length in P. split; auto.
  apply SS_map_opp; auto.
  intros i Hi. apply (Permutation_in i P) in Hi. apply in_seq in Hi. lia.
Qed.

Lemma gather_length {A} (d : A) l idx : length (gather d l idx) = length idx.
Proof. apply map_length. Qed.

Lemma gather_seq_id {A} (d : A) l : gather d l (seq 0 (length l)) = l.
Proof.
  unfold gather. induction l as [|a l IH]; simpl; auto.
  f_equal. rewrite <- seq_shift, map_map. exact IH.
Qed.

Lemma gather_perm {A} (d : A) l idx :
  Permutation idx (seq 0 (length l)) -> Permutation (gather d l idx) l.
Proof.
  intros P. rewrite <- (gather_seq_id d l) at 2. unfold gather. apply Permutation_map, P.
Qed.

Lemma rsort_perm l : Permutation (rsort l) l.
Proof. apply gather_perm, argsort_valid. Qed.

Lemma rsort_sorted l : StronglySorted Rle (rsort l).
Proof. unfold rsort, gather. apply argsort_valid. Qed.

Lemma rsort_length l : length (rsort l) = length l.
Proof. apply Permutation_length, rsort_perm. Qed.

(* Any two sorted rearrangements of the same values are equal: tf.sort is determined. *)
Lemma sorted_perm_unique l1 l2 :
  StronglySorted Rle l1 -> StronglySorted Rle l2 -> Permutation l1 l2 -> l1 = l2.
Proof.
  revert l2; induction l1 as [|a l1 IH]; intros l2 S1 S2 P.
  - apply Permutation_nil in P. now subst.
  - destruct l2 as [|b l2]; [symmetry in P; apply Permutation_nil in P; discriminate|].
    inversion S1 as [|? ? S1' F1]; inversion S2 as [|? ? S2' F2]; subst.
    rewrite Forall_forall in F1, F2.
    assert (a = b).
    { assert (In a (b :: l2)) by (eapply Permutation_in; [exact P|left; auto]).
      assert (In b (a :: l1)) by (eapply Permutation_in; [symmetry; exact P|left; auto]).
      destruct H as [->|Ha]; auto. destruct H0 as [->|Hb]; auto.
      specialize (F1 _ Hb). specialize (F2 _ Ha). simpl in *. lra. }
    subst b. f_equal. apply IH; auto. eapply Permutation_cons_inv, P.
Qed.

Lemma SS_nth l i j : StronglySorted Rle l -> (i <= j < length l)%nat -> nth i l 0 <= nth j l 0.
Proof.
  revert i j; induction l as [|a l IH]; intros i j S H; simpl in H; [lia|].
  inversion S as [|? ? S' F]; subst. rewrite Forall_forall in F.
  destruct i, j; simpl; try lia.
  - lra.
  - apply F, nth_In. lia.
  - apply IH; auto; lia.
Qed.

(* ---- Python's round ---- *)
Lemma py_round_spec x :
  Rabs (x - IZR (py_round x)) <= 1/2 /\
  (Rabs (x - IZR (py_round x)) = 1/2 -> Z.even (py_round x) = true).
Proof.
  unfold py_round. destruct (base_Int_part x) as [H1 H2].
  assert (E1 : forall z, IZR (z + 1) = IZR z + 1) by (intros; rewrite plus_IZR; reflexivity).
  destruct (Rlt_dec (x - IZR (Int_part x)) (1/2)) as [A | A].
  - rewrite Rabs_right by lra. split; [lra|]. intros; lra.
  - destruct (Rlt_dec (1/2) (x - IZR (Int_part x))) as [B | B].
    + rewrite E1. rewrite Rabs_left1 by lra. split; [lra|]. intros; lra.
    + destruct (Z.even (Int_part x)) eqn:E.
      * rewrite Rabs_right by lra. split; [lra|]. intros; exact E.
      * rewrite E1. rewrite Rabs_left1 by lra. split; [lra|].
        intros _. rewrite Z.add_1_r, Z.even_succ, <- Z.negb_even, E. reflexivity.
Qed.

Lemma py_round_unique x z :
  Rabs (x - IZR z) <= 1/2 -> (Rabs (x - IZR z) = 1/2 -> Z.even z = true) -> z = py_round x.
Proof.
  intros H1 H2. destruct (py_round_spec x) as [H3 H4].
  set (w := py_round x) in *.
  assert (Hd : (z - w <= 1 /\ w - z <= 1)%Z).
  { split; apply le_IZR; rewrite minus_IZR;
    revert H1 H3; unfold Rabs; repeat destruct (Rcase_abs _); intros; lra. }
  destruct (Z.eq_dec z w) as [E | E]; [exact E | exfalso].
  assert (Hc : (z = w + 1 \/ w = z + 1)%Z) by lia.
  assert (Hz : Rabs (x - IZR z) = 1/2 /\ Rabs (x - IZR w) = 1/2).
  { destruct Hc as [C | C]; rewrite C in *; rewrite plus_IZR in *;
    revert H1 H3; unfold Rabs; repeat destruct (Rcase_abs _); intros; lra. }
  destruct Hz as [Z1 Z2]. specialize (H2 Z1). specialize (H4 Z2).
  destruct Hc as [C | C]; rewrite C in *;
  rewrite Z.add_1_r, Z.even_succ, <- Z.negb_even in *;
  match goal with H : negb ?b = true, H' : ?b = true |- _ => rewrite H' in H; discriminate end.
Qed.

Lemma py_round_mono x y : x <= y -> (py_round x <= py_round y)%Z.
Proof.
  intros Hxy.
  destruct (py_round_spec x) as [A1 A2]. destruct (py_round_spec y) as [B1 B2].
  destruct (Z_le_gt_dec (py_round x) (py_round y)) as [L | G]; [exact L | exfalso].
  set (w := py_round x) in *. set (z := py_round y) in *.
  assert (G' : (z + 1 <= w)%Z) by lia. apply IZR_le in G'. rewrite plus_IZR in G'.
  assert (E : Rabs (x - IZR w) = 1/2 /\ Rabs (y - IZR z) = 1/2 /\ IZR w = IZR z + 1).
  { revert A1 B1; unfold Rabs; repeat destruct (Rcase_abs _); intros; lra. }
  destruct E as (E1 & E2 & E3). specialize (A2 E1). specialize (B2 E2).
  assert (C : w = (z + 1)%Z) by (apply eq_IZR; rewrite plus_IZR; exact E3).
  rewrite C, Z.add_1_r, Z.even_succ, <- Z.negb_even, B2 in A2. discriminate.
Qed.
