(* Lemmas about the grid functions: C49. *)
From Coq Require Import Reals String List Bool Arith Lia Lra ZArith.
From Verif Require Import M_Base L_Base M_Geometry M_Cplx M_Convert S_Convert.
Import ListNotations.
Open Scope R_scope.

Lemma ceil_bounds x : IZR (ceil x) - 1 < x <= IZR (ceil x).
Proof. unfold ceil. rewrite opp_IZR. pose proof (floor_bounds (- x)). lra. Qed.
Lemma ceil_Z z : ceil (IZR z) = z.
Proof.
  unfold ceil. rewrite <- opp_IZR. rewrite (floor_unique _ (- z)); [lia|]. lra.
Qed.
Lemma floor_Z z : Int_part (IZR z) = z.
Proof. apply floor_unique. lra. Qed.
Lemma trunc_Z z : trunc (IZR z) = z.
Proof. unfold trunc. destruct (Rltb _ _); [apply ceil_Z|apply floor_Z]. Qed.

Lemma tf_range_whole start limit n : limit - start = INR n ->
  length (tf_range start limit) = n /\
  forall i, (i < n)%nat -> nth i (tf_range start limit) 0 = start + INR i.
Proof.
  intros E. unfold tf_range. rewrite E, INR_IZR_INZ, ceil_Z, Nat2Z.id. split; [rewrite map_length, seq_length; reflexivity|].
  intros i Hi. rewrite (nth_indep _ 0 (start + INR 0)) by (rewrite map_length, seq_length; exact Hi).
  rewrite (map_nth (fun i => start + INR i)), seq_nth by exact Hi. reflexivity.
Qed.

Lemma half_even n : (n mod 2 = 0)%nat -> INR n = 2 * INR (n / 2).
Proof.
  intros E. rewrite (Nat.div_mod n 2) at 1 by lia. rewrite E, Nat.add_0_r, mult_INR. cbn. ring.
Qed.
Lemma half_odd n : (n mod 2 <> 0)%nat -> INR n = 2 * INR (n / 2) + 1.
Proof.
  intros E. rewrite (Nat.div_mod n 2) at 1 by lia.
  assert (n mod 2 = 1)%nat as -> by (pose proof (Nat.mod_upper_bound n 2); lia).
  rewrite plus_INR, mult_INR. cbn. ring.
Qed.

Lemma nth_map_R (f : R -> R) l i d : (i < length l)%nat -> nth i (map f l) d = f (nth i l 0).
Proof.
  intros L. rewrite (nth_indep _ d (f 0)) by (rewrite map_length; exact L). apply map_nth.
Qed.

Lemma C49_sub n spacing :
  length (subcarrier_frequencies n spacing) = n /\
  forall i, (i < n)%nat -> nth i (subcarrier_frequencies n spacing) 0 = centred n i * spacing.
Proof.
  unfold subcarrier_frequencies, centred.
  destruct (Nat.eqb_spec (n mod 2) 0) as [E|E].
  - apply half_even in E.
    destruct (tf_range_whole (- INR n / 2) (INR n / 2) n) as [L P]; [lra|].
    rewrite map_length. split; [exact L|]. intros i Hi. rewrite nth_map_R by (rewrite L; exact Hi).
    rewrite P by exact Hi. f_equal. lra.
  - apply half_odd in E.
    destruct (tf_range_whole (- (INR n - 1) / 2) ((INR n - 1) / 2 + 1) n) as [L P]; [lra|].
    rewrite map_length. split; [exact L|]. intros i Hi. rewrite nth_map_R by (rewrite L; exact Hi).
    rewrite P by exact Hi. f_equal. lra.
Qed.

Lemma C49_sub_zero n spacing : (0 < n)%nat -> exists i, (i < n)%nat /\ nth i (subcarrier_frequencies n spacing) 1 = 0.
Proof.
  intros N. exists (n / 2)%nat. assert (n / 2 < n)%nat by (apply Nat.div_lt; lia). split; [assumption|].
  destruct (C49_sub n spacing) as [L P]. rewrite (nth_indep _ 1 0) by (rewrite L; assumption).
  rewrite P by assumption. unfold centred. ring.
Qed.

Lemma tf_linspace_unit (a : Z) n : (0 < n)%nat ->
  length (tf_linspace a (a + Z.of_nat n - 1) n) = n /\
  forall i, (i < n)%nat -> nth i (tf_linspace a (a + Z.of_nat n - 1) n) 0 = IZR a + INR i.
Proof.
  intros N. unfold tf_linspace. cbv zeta.
  destruct (Nat.eq_dec n 1) as [->|N1].
  { cbn [Nat.sub Nat.max seq map app firstn length]. split; [reflexivity|].
    intros i Hi. replace i with 0%nat by lia. cbn. ring. }
  replace (Nat.max (n - 1) 1) with (n - 1)%nat by lia.
  assert (D : (IZR (a + Z.of_nat n - 1) - IZR a) / INR (n - 1) = 1).
  { rewrite minus_IZR, plus_IZR, <- INR_IZR_INZ, minus_INR by lia. cbn [INR].
    assert (2 <= INR n) by (apply (le_INR 2); lia). field. lra. }
  rewrite D.
  set (l := IZR a :: map (fun k => IZR a + 1 * INR k) (seq 1 (n - 1 - 1)) ++ [IZR (a + Z.of_nat n - 1)]).
  assert (Ll : length l = n).
  { unfold l. cbn [length]. rewrite app_length, map_length, seq_length. cbn [length]. lia. }
  assert (El : l = map (fun k => IZR a + INR k) (seq 0 n)).
  { transitivity (map (fun k => IZR a + INR k) (0%nat :: seq 1 (n - 2) ++ [(1 + (n - 2))%nat])).
    2:{ f_equal. rewrite <- seq_S. change (0%nat :: seq 1 (S (n - 2))) with (seq 0 (S (S (n - 2)))). f_equal. lia. }
    unfold l. cbn [map]. f_equal; [cbn; ring|]. rewrite map_app. replace (n - 1 - 1)%nat with (n - 2)%nat by lia. f_equal.
    - apply map_ext. intros; ring.
    - cbn [map]. f_equal. rewrite minus_IZR, plus_IZR, <- INR_IZR_INZ.
      replace (1 + (n - 2))%nat with (n - 1)%nat by lia. rewrite minus_INR by lia. cbn [INR]. ring. }
  rewrite firstn_all2 by lia. rewrite El. split; [rewrite map_length, seq_length; reflexivity|].
  intros i Hi. rewrite (nth_indep _ 0 (IZR a + INR 0)) by (rewrite map_length, seq_length; exact Hi).
  rewrite (map_nth (fun k => IZR a + INR k)), seq_nth by exact Hi. reflexivity.
Qed.

Lemma C49_tf n duration : (0 < n)%nat -> duration <> 0 ->
  let '(t, f) := time_frequency_vector n duration in
  length t = n /\ length f = n /\
  forall i, (i < n)%nat ->
    nth i t 0 = centred n i * duration /\ nth i f 0 = centred n i / (duration * INR n).
Proof.
  intros N D. unfold time_frequency_vector.
  set (b := if Nat.eqb (n mod 2) 0 then _ else _).
  assert (B : b = ((- Z.of_nat (n / 2))%Z, (- Z.of_nat (n / 2) + Z.of_nat n - 1)%Z)).
  { unfold b. destruct (Nat.eqb_spec (n mod 2) 0) as [E|E].
    - apply half_even in E.
      replace (- INR n / 2) with (IZR (- Z.of_nat (n / 2))) by (rewrite opp_IZR, <- INR_IZR_INZ; lra).
      replace (INR n / 2 - 1) with (IZR (- Z.of_nat (n / 2) + Z.of_nat n - 1))
        by (rewrite minus_IZR, plus_IZR, opp_IZR, <- !INR_IZR_INZ; lra).
      rewrite !trunc_Z. reflexivity.
    - apply half_odd in E.
      replace (- (INR n - 1) / 2) with (IZR (- Z.of_nat (n / 2))) by (rewrite opp_IZR, <- INR_IZR_INZ; lra).
      replace ((INR n + 1) / 2 - 1) with (IZR (- Z.of_nat (n / 2) + Z.of_nat n - 1))
        by (rewrite minus_IZR, plus_IZR, opp_IZR, <- !INR_IZR_INZ; lra).
      rewrite !trunc_Z. reflexivity. }
  rewrite B. destruct (tf_linspace_unit (- Z.of_nat (n / 2)) n N) as [L P].
  rewrite !map_length, L. repeat split; try reflexivity;
    rewrite nth_map_R by (rewrite L; assumption); rewrite P by assumption; unfold centred;
    rewrite opp_IZR, <- INR_IZR_INZ.
  - ring.
  - assert (0 < INR n) by (apply (lt_INR 0); assumption). field. split; first [exact D|lra].
Qed.

Lemma C49_lag W tau_max : 0 <= W ->
  let '(l_min, l_max) := time_lag W tau_max in
  l_min = (-6)%Z /\
  (forall tau, 0 <= tau <= tau_max -> IZR l_min + 6 <= W * tau <= IZR l_max - 6) /\
  IZR l_max - 7 < W * tau_max.
Proof.
  intros HW. unfold time_lag. pose proof (ceil_bounds (tau_max * W)) as B. rewrite plus_IZR. repeat split.
  - assert (0 <= W * tau) by (apply Rmult_le_pos; lra). lra.
  - assert (W * tau <= W * tau_max) by (apply Rmult_le_compat_l; lra). lra.
  - lra.
Qed.
