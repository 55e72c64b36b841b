(* Finite complex sums. *)
From Coq Require Import Reals List Bool Arith Lia Lra ZArith.
From Verif Require Import M_Base L_Base L_Trig M_Cplx L_Coeff.
Import ListNotations.
Open Scope R_scope.

Lemma csumN_0 f : csumN 0 f = c0.
Proof. reflexivity. Qed.
Lemma csumN_S n f : csumN (S n) f = cadd (csumN n f) (f n).
Proof.
  unfold csumN. rewrite seq_S, map_app, csum_app. cbn [map]. f_equal. unfold csum; cbn [fold_right plus].
  ring.
Qed.
Lemma csumN_ext n f g : (forall k, (k < n)%nat -> f k = g k) -> csumN n f = csumN n g.
Proof.
  induction n as [|n IH]; intros E; [reflexivity|]. rewrite !csumN_S, E by lia. f_equal. apply IH. intros; apply E; lia.
Qed.
Lemma csumN_add n f g : csumN n (fun k => cadd (f k) (g k)) = cadd (csumN n f) (csumN n g).
Proof.
  induction n as [|n IH]; [rewrite !csumN_0; ring|]. rewrite !csumN_S, IH. ring.
Qed.
Lemma csumN_mul_l n c f : csumN n (fun k => cmul c (f k)) = cmul c (csumN n f).
Proof.
  induction n as [|n IH]; [rewrite !csumN_0; ring|]. rewrite !csumN_S, IH. ring.
Qed.
Lemma csumN_mul_r n c f : csumN n (fun k => cmul (f k) c) = cmul (csumN n f) c.
Proof.
  induction n as [|n IH]; [rewrite !csumN_0; ring|]. rewrite !csumN_S, IH. ring.
Qed.
Lemma csumN_zero n f : (forall k, (k < n)%nat -> f k = c0) -> csumN n f = c0.
Proof.
  induction n as [|n IH]; intros E; [reflexivity|]. rewrite csumN_S, E, IH by (intros; try apply E; lia). ring.
Qed.
Lemma csumN_split n m f : csumN (n + m) f = cadd (csumN n f) (csumN m (fun k => f (n + k)%nat)).
Proof.
  induction m as [|m IH]; [rewrite Nat.add_0_r, csumN_0; ring|].
  rewrite Nat.add_succ_r, !csumN_S, IH. ring.
Qed.
Lemma csumN_single n f k : (k < n)%nat -> (forall j, (j < n)%nat -> j <> k -> f j = c0) -> csumN n f = f k.
Proof.
  intros L E. replace n with (k + S (n - S k))%nat by lia. rewrite csumN_split, (csumN_zero k) by (intros; apply E; lia).
  rewrite (csumN_ext _ _ (fun j => if Nat.eqb j 0 then f k else c0)).
  2:{ intros j Hj. destruct (Nat.eqb_spec j 0) as [->|N]; [f_equal; lia|apply E; lia]. }
  generalize (n - S k)%nat as m. induction m as [|m IH]; [rewrite csumN_S, csumN_0; cbn; ring|].
  rewrite csumN_S. cbn [Nat.eqb]. etransitivity; [|exact IH]. ring.
Qed.
Lemma csumN_swap n m f : csumN n (fun i => csumN m (fun j => f i j)) = csumN m (fun j => csumN n (fun i => f i j)).
Proof.
  induction n as [|n IH].
  - rewrite csumN_0. symmetry. apply csumN_zero. intros; apply csumN_0.
  - rewrite csumN_S, IH, <- csumN_add. apply csumN_ext. intros; rewrite csumN_S; reflexivity.
Qed.
Lemma csumN_conj n f : cconj (csumN n f) = csumN n (fun k => cconj (f k)).
Proof.
  induction n as [|n IH]; [apply cplx_eq; cbn; ring|]. rewrite !csumN_S, <- IH. apply cplx_eq; cbn; ring.
Qed.
Lemma csumN_re n f : re (csumN n f) = sumR n (fun k => re (f k)).
Proof. induction n as [|n IH]; [reflexivity|]. rewrite csumN_S. cbn. rewrite IH. reflexivity. Qed.
Lemma csumN_im n f : im (csumN n f) = sumR n (fun k => im (f k)).
Proof. induction n as [|n IH]; [reflexivity|]. rewrite csumN_S. cbn. rewrite IH. reflexivity. Qed.

(* a sum over one period does not depend on where the period starts *)
Lemma csumN_rotate_1 n f : f n = f 0%nat -> csumN n (fun k => f (S k)) = csumN n f.
Proof.
  intros E. assert (H : csumN (S n) f = cadd (f 0%nat) (csumN n (fun k => f (S k)))).
  { change (S n) with (1 + n)%nat. rewrite csumN_split, csumN_S, csumN_0. cbn [plus]. ring. }
  rewrite csumN_S, E in H.
  transitivity (csub (cadd (csumN n f) (f 0%nat)) (f 0%nat)); [rewrite H; ring|ring].
Qed.
Lemma csumN_rotate n (f : nat -> cplx) s : (forall k, f (k + n)%nat = f k) -> csumN n (fun k => f (k + s)%nat) = csumN n f.
Proof.
  intros P. induction s as [|s IH].
  - apply csumN_ext. intros; f_equal; lia.
  - rewrite <- IH. rewrite <- (csumN_rotate_1 n (fun k => f (k + s)%nat)).
    + apply csumN_ext. intros; f_equal; lia.
    + replace (n + s)%nat with (0 + s + n)%nat by lia. apply P.
Qed.
(* periodic functions on the integers *)
Lemma periodic_Z n (f : Z -> cplx) : (forall k, f (k + Z.of_nat n)%Z = f k) ->
  forall k m, f (k + m * Z.of_nat n)%Z = f k.
Proof.
  intros P k m. destruct (Z_le_gt_dec 0 m) as [G|G].
  - rewrite <- (Z2Nat.id m) by lia. induction (Z.to_nat m) as [|j IH]; [f_equal; lia|].
    rewrite <- IH, <- (P (k + Z.of_nat j * Z.of_nat n)%Z). f_equal. lia.
  - replace m with (- (- m))%Z by lia. rewrite <- (Z2Nat.id (- m)) by lia.
    induction (Z.to_nat (- m)) as [|j IH]; [f_equal; lia|].
    rewrite <- IH, <- (P (k + - Z.of_nat (S j) * Z.of_nat n)%Z). f_equal. lia.
Qed.
Lemma csumN_rotate_Z n (f : Z -> cplx) s : (0 < n)%nat -> (forall k, f (k + Z.of_nat n)%Z = f k) ->
  csumN n (fun k => f (Z.of_nat k + s)%Z) = csumN n (fun k => f (Z.of_nat k)).
Proof.
  intros N P.
  rewrite <- (csumN_rotate n (fun k => f (Z.of_nat k)) (Z.to_nat (s mod Z.of_nat n))).
  2:{ intros k. rewrite Nat2Z.inj_add. apply P. }
  apply csumN_ext. intros k Hk. rewrite Nat2Z.inj_add, Z2Nat.id by (apply Z.mod_pos_bound; lia).
  rewrite (Z.div_mod s (Z.of_nat n)) at 1 by lia.
  rewrite <- (periodic_Z n f P (Z.of_nat k + s mod Z.of_nat n) (s / Z.of_nat n)). f_equal. lia.
Qed.

Lemma cexpi_turns x (m : Z) : cexpi (x + 2 * PI * IZR m) = cexpi x.
Proof.
  assert (N : forall k x, cexpi (x + 2 * PI * INR k) = cexpi x).
  { intros k y. induction k as [|k IH]; [f_equal; cbn; ring|].
    rewrite S_INR. replace (y + 2 * PI * (INR k + 1)) with ((y + 2 * PI * INR k) + 2 * PI) by ring.
    rewrite <- IH. generalize (y + 2 * PI * INR k) as w. intros w. apply cplx_eq; cbn.
    - rewrite cos_plus, cos_2PI, sin_2PI. ring.
    - rewrite sin_plus, cos_2PI, sin_2PI. ring. }
  destruct (Z_le_gt_dec 0 m) as [G|G].
  - rewrite <- (Z2Nat.id m) by lia. rewrite <- INR_IZR_INZ. apply N.
  - rewrite <- (N (Z.to_nat (- m)) (x + 2 * PI * IZR m)). f_equal.
    rewrite INR_IZR_INZ, Z2Nat.id by lia. rewrite opp_IZR. ring.
Qed.
Lemma cconj_cexpi x : cconj (cexpi x) = cexpi (- x).
Proof. apply cplx_eq; cbn; [rewrite cos_neg|rewrite sin_neg]; ring. Qed.
Lemma cnorm2_nonneg a : 0 <= cnorm2 a.
Proof. unfold cnorm2. nra. Qed.
Lemma cnorm2_zero a : cnorm2 a = 0 -> a = c0.
Proof. unfold cnorm2. intros E. apply cplx_eq; cbn; nra. Qed.
Lemma cmul_conj a : cmul a (cconj a) = creal (cnorm2 a).
Proof. apply cplx_eq; unfold cnorm2; cbn; ring. Qed.
Lemma cconj_mul a b : cconj (cmul a b) = cmul (cconj a) (cconj b).
Proof. apply cplx_eq; cbn; ring. Qed.
