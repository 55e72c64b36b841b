(* Root-mean-square delay spread of the tapped delay lines: C74. *)
From Coq Require Import Reals String List Bool Arith Lia Lra ZArith QArith Qreals.
From Verif Require Import M_Base L_Base L_Trig M_Json D_Links M_Params M_Geometry M_Cplx L_Coeff M_Convert M_Links S_Convert S_Links L_Csum L_Grids L_Convert L_Tdl.
Import ListNotations.
Open Scope string_scope.
Open Scope list_scope.
Open Scope R_scope.

(* ---- variance as a sum over pairs ---- *)
Definition tapsR := list (R * R).     (* power, delay *)
Definition s0 (l : tapsR) : R := Rsum (map fst l).
Definition s1 (l : tapsR) : R := Rsum (map (fun x => fst x * snd x) l).
Definition s2 (l : tapsR) : R := Rsum (map (fun x => fst x * snd x ^ 2) l).
Definition crossR (p d : R) (l : tapsR) : R := Rsum (map (fun x => p * fst x * (d - snd x) ^ 2) l).
Fixpoint pairsR (l : tapsR) : R := match l with [] => 0 | (p, d) :: r => crossR p d r + pairsR r end.
Lemma cross_expand p d l : crossR p d l = p * (d ^ 2 * s0 l - 2 * d * s1 l + s2 l).
Proof.
  unfold crossR, s0, s1, s2. induction l as [|[q e] l IH]; cbn [map Rsum fst snd]; [ring|]. rewrite IH. ring.
Qed.
Lemma pairs_variance l : pairsR l = s0 l * s2 l - s1 l ^ 2.
Proof.
  induction l as [|[p d] l IH]; [unfold s0, s1, s2; cbn; ring|]. cbn [pairsR]. rewrite cross_expand, IH.
  unfold s0, s1, s2. cbn [map Rsum fst snd]. ring.
Qed.

(* ---- the same on rationals ---- *)
Definition tapsQ := list (Q * Q).
Definition s0Q (l : tapsQ) : Q := fold_right (fun x a => Qred (fst x + a)) 0%Q l.
Definition crossQ (p d : Q) (l : tapsQ) : Q := fold_right (fun x a => Qred (p * fst x * ((d - snd x) * (d - snd x)) + a)) 0%Q l.
Fixpoint pairsQ (l : tapsQ) : Q := match l with [] => 0%Q | (p, d) :: r => Qred (crossQ p d r + pairsQ r) end.

Definition toR (x : Q * Q) : R * R := (Q2R (fst x), Q2R (snd x)).
Lemma Q2R_red x : Q2R (Qred x) = Q2R x.
Proof. apply Qeq_eqR, Qred_correct. Qed.
Lemma Q2R_0' : Q2R 0 = 0. Proof. unfold Q2R; cbn; lra. Qed.
Lemma s0Q_R l : Q2R (s0Q l) = s0 (map toR l).
Proof.
  unfold s0Q, s0. induction l as [|x l IH]; [exact Q2R_0'|].
  cbn [fold_right map Rsum]. rewrite Q2R_red, Q2R_plus, IH. reflexivity.
Qed.
Lemma crossQ_R p d l : Q2R (crossQ p d l) = crossR (Q2R p) (Q2R d) (map toR l).
Proof.
  unfold crossQ, crossR. induction l as [|x l IH]; [exact Q2R_0'|].
  cbn [fold_right map Rsum]. rewrite Q2R_red, Q2R_plus, IH, !Q2R_mult, Q2R_minus. unfold toR; cbn [fst snd]. ring.
Qed.
Lemma pairsQ_R l : Q2R (pairsQ l) = pairsR (map toR l).
Proof.
  induction l as [|[p d] l IH]; [exact Q2R_0'|]. cbn [pairsQ map]. rewrite Q2R_red, Q2R_plus, IH, crossQ_R. reflexivity.
Qed.

(* ---- monotone in the powers ---- *)
Definition below (x y : R * R) : Prop := 0 <= fst x <= fst y /\ snd x = snd y.
Lemma s0_mono l l' : Forall2 below l l' -> 0 <= s0 l <= s0 l'.
Proof.
  unfold s0. induction 1 as [|x y l l' [B _] F IH]; cbn [map Rsum]; lra.
Qed.
Lemma cross_mono p p' d l l' : 0 <= p <= p' -> Forall2 below l l' -> 0 <= crossR p d l <= crossR p' d l'.
Proof.
  intros P. unfold crossR. induction 1 as [|x y l l' [B E] F IH]; cbn [map Rsum]; [lra|]. rewrite E.
  assert (S : 0 <= (d - snd y) ^ 2) by apply pow2_ge_0.
  assert (0 <= p * fst x <= p' * fst y) by (split; [nra|apply Rmult_le_compat; lra]).
  assert (0 <= p * fst x * (d - snd y) ^ 2 <= p' * fst y * (d - snd y) ^ 2) by (split; [nra|apply Rmult_le_compat_r; lra]). lra.
Qed.
Lemma pairs_mono l l' : Forall2 below l l' -> 0 <= pairsR l <= pairsR l'.
Proof.
  induction 1 as [|[p d] [p' d'] l l' [B E] F IH]; cbn [pairsR]; [lra|]. cbn [fst snd] in *. subst d'.
  pose proof (cross_mono p p' d l l' B F). lra.
Qed.

(* ---- tenth roots of ten ---- *)
Definition root (k : nat) : R := Rpower 10 (/ 10 ^ k).
Lemma root_pow k : root (S k) ^ 10 = root k.
Proof.
  unfold root. rewrite <- Rpower_pow by apply exp_pos. rewrite Rpower_mult. f_equal.
  cbn [pow]. replace (INR 10) with 10 by (cbn; lra). field. apply pow_nonzero; lra.
Qed.
Lemma root_0 : root 0 = 10.
Proof. unfold root. cbn [pow]. rewrite Rinv_1. apply Rpower_1; lra. Qed.
Lemma root_pos k : 0 < root k. Proof. apply exp_pos. Qed.
Lemma pow10_inv_le x y : 0 <= x -> 0 <= y -> x ^ 10 <= y ^ 10 -> x <= y.
Proof.
  intros X Y H. destruct (Rle_or_lt x y) as [L|L]; [exact L|exfalso].
  assert (y ^ 10 < x ^ 10); [|lra]. cbn [pow]; repeat (apply Rmult_le_0_lt_compat; try lra; repeat apply Rmult_le_pos; try lra).
Qed.

(* rational bounds of the roots *)
Definition unit12 : positive := 1000000000000.
Definition lo_num (k : nat) : Z := match k with S O => 1258925411793 | S (S O) => 1023292992279 | S (S (S O)) => 1002305238076 | _ => 1000230285019 end%Z.
Definition hi_num (k : nat) : Z := match k with S O => 1258925411796 | S (S O) => 1023292992282 | S (S (S O)) => 1002305238079 | _ => 1000230285022 end%Z.
Definition loQ (k : nat) : Q := lo_num k # unit12.
Definition hiQ (k : nat) : Q := hi_num k # unit12.
Lemma Q2R_pow10 q : Q2R (q * q * q * q * q * q * q * q * q * q) = Q2R q ^ 10.
Proof. rewrite !Q2R_mult. ring. Qed.
Lemma Qle_R x y : Qle_bool x y = true -> Q2R x <= Q2R y.
Proof. intros H. apply Qle_Rle, Qle_bool_iff, H. Qed.
Lemma root_step k l h l' h' : Q2R l <= root k <= Q2R h ->
  Qle_bool 0 l' && Qle_bool 0 h' && Qle_bool (l' * l' * l' * l' * l' * l' * l' * l' * l' * l') l
  && Qle_bool h (h' * h' * h' * h' * h' * h' * h' * h' * h' * h') = true ->
  Q2R l' <= root (S k) <= Q2R h'.
Proof.
  intros [B1 B2] C. apply andb_prop in C. destruct C as [C C4]. apply andb_prop in C. destruct C as [C C3]. apply andb_prop in C. destruct C as [C1 C2].
  apply Qle_R in C1, C2, C3, C4. rewrite Q2R_0' in C1, C2. rewrite Q2R_pow10 in C3, C4.
  pose proof (root_pos (S k)). pose proof (root_pow k) as E.
  split; apply pow10_inv_le; lra.
Qed.
Lemma root1 : Q2R (loQ 1) <= root 1 <= Q2R (hiQ 1).
Proof. apply (root_step 0 10 10); [rewrite root_0; unfold Q2R; cbn; lra|vm_compute; reflexivity]. Qed.
Lemma root2 : Q2R (loQ 2) <= root 2 <= Q2R (hiQ 2).
Proof. apply (root_step 1 (loQ 1) (hiQ 1)); [exact root1|vm_compute; reflexivity]. Qed.
Lemma root3 : Q2R (loQ 3) <= root 3 <= Q2R (hiQ 3).
Proof. apply (root_step 2 (loQ 2) (hiQ 2)); [exact root2|vm_compute; reflexivity]. Qed.
Lemma root4 : Q2R (loQ 4) <= root 4 <= Q2R (hiQ 4).
Proof. apply (root_step 3 (loQ 3) (hiQ 3)); [exact root3|vm_compute; reflexivity]. Qed.

(* a power of ten with four decimals in the exponent: -m + 0.abcd *)
Record expo := Ex { ex_m : nat; ex_a : nat; ex_b : nat; ex_c : nat; ex_d : nat }.
Definition exR (e : expo) : R := - INR (ex_m e) + INR (ex_a e) / 10 + INR (ex_b e) / 100 + INR (ex_c e) / 1000 + INR (ex_d e) / 10000.
Fixpoint powQ (q : Q) (k : nat) : Q := match k with O => 1%Q | S k => (q * powQ q k)%Q end.
Definition tenth (m : nat) : Q := powQ (1 # 10) m.
Definition valQ (f : nat -> Q) (e : expo) : Q :=
  (tenth (ex_m e) * powQ (f 1%nat) (ex_a e) * powQ (f 2%nat) (ex_b e) * powQ (f 3%nat) (ex_c e) * powQ (f 4%nat) (ex_d e))%Q.
Lemma powQ_R q k : Q2R (powQ q k) = Q2R q ^ k.
Proof. induction k as [|k IH]; cbn [powQ pow]; [unfold Q2R; cbn; lra|]. rewrite Q2R_mult, IH. reflexivity. Qed.
Lemma tenth_R m : Q2R (tenth m) = Rpower 10 (- INR m).
Proof.
  unfold tenth. rewrite powQ_R. replace (Q2R (1 # 10)) with (/ 10) by (unfold Q2R; cbn; lra).
  rewrite Rpower_Ropp, Rpower_pow by lra. rewrite pow_inv by lra. reflexivity.
Qed.
Lemma exR_val e : Rpower 10 (exR e) = Rpower 10 (- INR (ex_m e)) * root 1 ^ ex_a e * root 2 ^ ex_b e * root 3 ^ ex_c e * root 4 ^ ex_d e.
Proof.
  rewrite <- !Rpower_pow by apply root_pos. unfold root. rewrite !Rpower_mult, <- !Rpower_plus. f_equal.
  unfold exR. cbn [pow]. field.
Qed.
Lemma val_bounds e : Q2R (valQ loQ e) <= Rpower 10 (exR e) <= Q2R (valQ hiQ e) /\ 0 <= Q2R (valQ loQ e).
Proof.
  unfold valQ. rewrite !Q2R_mult, !powQ_R, tenth_R, exR_val.
  assert (L : forall k, 0 <= Q2R (loQ k)).
  { intros k. unfold loQ, Q2R. apply Rmult_le_pos; [|left; apply Rinv_0_lt_compat, IZR_lt; reflexivity].
    apply IZR_le. unfold lo_num. cbn [Qnum]. destruct k as [|[|[|[|k]]]]; lia. }
  pose proof root1 as [A1 A2]. pose proof root2 as [B1 B2]. pose proof root3 as [C1 C2]. pose proof root4 as [D1 D2].
  assert (Z : 0 < Rpower 10 (- INR (ex_m e))) by apply exp_pos.
  pose proof (pow_incr _ _ (ex_a e) (conj (L 1%nat) A1)). pose proof (pow_incr _ _ (ex_b e) (conj (L 2%nat) B1)).
  pose proof (pow_incr _ _ (ex_c e) (conj (L 3%nat) C1)). pose proof (pow_incr _ _ (ex_d e) (conj (L 4%nat) D1)).
  pose proof (pow_incr _ _ (ex_a e) (conj (Rlt_le _ _ (root_pos 1)) A2)). pose proof (pow_incr _ _ (ex_b e) (conj (Rlt_le _ _ (root_pos 2)) B2)).
  pose proof (pow_incr _ _ (ex_c e) (conj (Rlt_le _ _ (root_pos 3)) C2)). pose proof (pow_incr _ _ (ex_d e) (conj (Rlt_le _ _ (root_pos 4)) D2)).
  pose proof (pow_le _ (ex_a e) (L 1%nat)). pose proof (pow_le _ (ex_b e) (L 2%nat)). pose proof (pow_le _ (ex_c e) (L 3%nat)). pose proof (pow_le _ (ex_d e) (L 4%nat)).
  pose proof (pow_lt _ (ex_a e) (root_pos 1)). pose proof (pow_lt _ (ex_b e) (root_pos 2)). pose proof (pow_lt _ (ex_c e) (root_pos 3)). pose proof (pow_lt _ (ex_d e) (root_pos 4)).
  repeat split; repeat first [apply Rmult_le_compat | apply Rmult_le_pos]; lra.
Qed.

(* ---- a profile given by exponents and rational delays ---- *)
Definition erow := (expo * Q)%type.
Definition rowR (r : erow) : R * R := (Rpower 10 (exR (fst r)), Q2R (snd r)).
(* the powers between two integers in units of 1e-9; both are literals, so that nothing is divided when the check runs *)
Definition unit9 : positive := 1000000000.
Definition brow := (erow * (Z * Z))%type.
Definition browR (r : brow) : R * R := rowR (fst r).
Definition lowQ (l : list brow) : tapsQ := map (fun r => (fst (snd r) # unit9, snd (fst r))%Q) l.
Definition highQ (l : list brow) : tapsQ := map (fun r => (snd (snd r) # unit9, snd (fst r))%Q) l.
Definition row_ok (r : brow) : bool :=
  Qle_bool 0 (fst (snd r) # unit9) && Qle_bool (fst (snd r) # unit9) (valQ loQ (fst (fst r))) &&
  Qle_bool (valQ hiQ (fst (fst r))) (snd (snd r) # unit9).
Definition check (l : list brow) (lo hi : Q) : bool :=
  forallb row_ok l &&
  (let low := s0Q (lowQ l) in let high := s0Q (highQ l) in
   Qle_bool 0 lo && Qle_bool 0 hi && negb (Qle_bool low 0) &&
   Qle_bool (lo * lo * (high * high)) (pairsQ (lowQ l)) &&
   Qle_bool (pairsQ (highQ l)) (hi * hi * (low * low))).
Lemma row_ok_R r : row_ok r = true ->
  0 <= Q2R (fst (snd r) # unit9) <= fst (browR r) /\ fst (browR r) <= Q2R (snd (snd r) # unit9).
Proof.
  unfold row_ok. intros C. apply andb_prop in C. destruct C as [C C3]. apply andb_prop in C. destruct C as [C1 C2].
  apply Qle_R in C1, C2, C3. rewrite Q2R_0' in C1. destruct (val_bounds (fst (fst r))) as [[B1 B2] _]. cbn [browR rowR fst]. lra.
Qed.
Lemma check_spread l lo hi : check l lo hi = true ->
  let t := map browR l in
  0 < s0 t /\ Q2R lo <= sqrt (s2 t / s0 t - (s1 t / s0 t) ^ 2) <= Q2R hi.
Proof.
  unfold check. cbv zeta. intros C. apply andb_prop in C. destruct C as [RO C]. rewrite forallb_forall in RO.
  apply andb_prop in C. destruct C as [C C5]. apply andb_prop in C. destruct C as [C C4].
  apply andb_prop in C. destruct C as [C C3]. apply andb_prop in C. destruct C as [C1 C2].
  apply Qle_R in C1, C2, C4, C5. rewrite Q2R_0' in C1, C2.
  assert (P : 0 < Q2R (s0Q (lowQ l))).
  { destruct (Qle_bool (s0Q (lowQ l)) 0) eqn:E; [discriminate|]. rewrite <- Q2R_0'. apply Qlt_Rlt.
    apply Qnot_le_lt. intros X. apply Qle_bool_iff in X. congruence. }
  rewrite !Q2R_mult, !s0Q_R, pairsQ_R in C4. rewrite !Q2R_mult, !s0Q_R, pairsQ_R in C5. rewrite s0Q_R in P.
  set (t := map browR l). cbv zeta.
  assert (F1 : Forall2 below (map toR (lowQ l)) t).
  { unfold lowQ, t. rewrite map_map. clear - RO. induction l as [|r l IH]; constructor; [|apply IH; intros x H; apply RO; right; exact H].
    destruct (row_ok_R r (RO r (or_introl eq_refl))) as [B _]. split; [exact B|reflexivity]. }
  assert (F2 : Forall2 below t (map toR (highQ l))).
  { unfold highQ, t. rewrite map_map. clear - RO. induction l as [|r l IH]; constructor; [|apply IH; intros x H; apply RO; right; exact H].
    destruct (row_ok_R r (RO r (or_introl eq_refl))) as [B1 B2]. split; [split; [exact (Rle_trans _ _ _ (proj1 B1) (proj2 B1))|exact B2]|reflexivity]. }
  pose proof (s0_mono _ _ F1) as M1. pose proof (s0_mono _ _ F2) as M2. pose proof (pairs_mono _ _ F1) as N1. pose proof (pairs_mono _ _ F2) as N2.
  assert (T0 : 0 < s0 t) by lra. split; [exact T0|].
  replace (s2 t / s0 t - (s1 t / s0 t) ^ 2) with (pairsR t / (s0 t * s0 t)) by (rewrite pairs_variance; field; lra).
  assert (TT : 0 < s0 t * s0 t) by (apply Rmult_lt_0_compat; assumption).
  assert (G1 : s0 t * s0 t <= s0 (map toR (highQ l)) * s0 (map toR (highQ l))) by (apply Rmult_le_compat; lra).
  assert (G2 : s0 (map toR (lowQ l)) * s0 (map toR (lowQ l)) <= s0 t * s0 t) by (apply Rmult_le_compat; lra).
  assert (L2 : 0 <= Q2R lo * Q2R lo) by (apply Rmult_le_pos; lra). assert (H2 : 0 <= Q2R hi * Q2R hi) by (apply Rmult_le_pos; lra).
  split.
  - rewrite <- (sqrt_square (Q2R lo)) by exact C1. apply sqrt_le_1_alt.
    apply (Rmult_le_reg_r (s0 t * s0 t)); [exact TT|]. replace (pairsR t / (s0 t * s0 t) * (s0 t * s0 t)) with (pairsR t) by (field; lra).
    assert (Q2R lo * Q2R lo * (s0 t * s0 t) <= Q2R lo * Q2R lo * (s0 (map toR (highQ l)) * s0 (map toR (highQ l)))) by (apply Rmult_le_compat_l; lra). lra.
  - rewrite <- (sqrt_square (Q2R hi)) by exact C2. apply sqrt_le_1_alt.
    apply (Rmult_le_reg_r (s0 t * s0 t)); [exact TT|]. replace (pairsR t / (s0 t * s0 t) * (s0 t * s0 t)) with (pairsR t) by (field; lra).
    assert (Q2R hi * Q2R hi * (s0 (map toR (lowQ l)) * s0 (map toR (lowQ l))) <= Q2R hi * Q2R hi * (s0 t * s0 t)) by (apply Rmult_le_compat_l; lra). lra.
Qed.
Definition erows_A : list brow :=
  [ (Ex 0 0 0 0 0, (0 # 1)%Q, (1000000000, 1000000000)%Z); (Ex 1 5 3 2 5, (10811 # 10000)%Q, (340800324, 340800325)%Z); (Ex 1 3 5 1 8, (28416 # 10000)%Q, (224801911, 224801912)%Z) ]%nat.
Definition erows_B : list brow :=
  [ (Ex 0 0 0 0 0, (0 # 1)%Q, (1000000000, 1000000000)%Z); (Ex 1 8 0 2 7, (7249 # 10000)%Q, (634892212, 634892213)%Z); (Ex 1 5 6 6 8, (7410 # 10000)%Q, (368807717, 368807718)%Z); (Ex 2 8 0 8 6, (57392 # 10000)%Q, (64357623, 64357624)%Z) ]%nat.
Definition erows_C : list brow :=
  [ (Ex 1 9 6 0 6, (0 # 1)%Q, (913271699, 913271700)%Z); (Ex 2 9 3 8 2, (0 # 1)%Q, (86736121, 86736122)%Z); (Ex 3 6 6 2 7, (148124 # 10000)%Q, (4599387, 4599388)%Z) ]%nat.
Definition erows_D : list brow :=
  [ (Ex 1 9 7 1 6, (0 # 1)%Q, (936698877, 936698878)%Z); (Ex 2 8 0 0 9, (0 # 1)%Q, (63226624, 63226625)%Z); (Ex 1 0 1 1 3, (5596 # 10000)%Q, (102636066, 102636067)%Z); (Ex 2 3 2 2 9, (73340 # 10000)%Q, (21032940, 21032941)%Z) ]%nat.
Definition erows_A30 : list brow :=
  [ (Ex 2 4 5 0 0, (0 # 1)%Q, (28183829, 28183830)%Z); (Ex 0 0 0 0 0, (10 # 1)%Q, (1000000000, 1000000000)%Z); (Ex 1 4 9 0 0, (15 # 1)%Q, (309029543, 309029544)%Z); (Ex 1 4 9 0 0, (20 # 1)%Q, (309029543, 309029544)%Z); (Ex 1 0 4 0 0, (25 # 1)%Q, (109647819, 109647820)%Z); (Ex 1 1 8 0 0, (50 # 1)%Q, (151356124, 151356125)%Z); (Ex 2 6 9 0 0, (65 # 1)%Q, (48977881, 48977882)%Z); (Ex 2 8 5 0 0, (75 # 1)%Q, (70794578, 70794579)%Z); (Ex 2 9 0 0 0, (105 # 1)%Q, (79432823, 79432824)%Z); (Ex 2 3 8 0 0, (135 # 1)%Q, (23988329, 23988330)%Z); (Ex 2 3 4 0 0, (150 # 1)%Q, (21877616, 21877617)%Z); (Ex 3 3 8 0 0, (290 # 1)%Q, (2398832, 2398833)%Z) ]%nat.
Definition erows_B100 : list brow :=
  [ (Ex 0 0 0 0 0, (0 # 1)%Q, (1000000000, 1000000000)%Z); (Ex 1 7 8 0 0, (10 # 1)%Q, (602559586, 602559587)%Z); (Ex 1 9 4 0 0, (20 # 1)%Q, (870963589, 870963590)%Z); (Ex 1 9 4 0 0, (30 # 1)%Q, (870963589, 870963590)%Z); (Ex 1 9 7 0 0, (35 # 1)%Q, (933254300, 933254301)%Z); (Ex 1 8 8 0 0, (45 # 1)%Q, (758577575, 758577576)%Z); (Ex 1 4 1 0 0, (55 # 1)%Q, (257039578, 257039579)%Z); (Ex 1 7 8 0 0, (120 # 1)%Q, (602559586, 602559587)%Z); (Ex 1 9 2 0 0, (170 # 1)%Q, (831763771, 831763772)%Z); (Ex 1 3 7 0 0, (245 # 1)%Q, (234422881, 234422882)%Z); (Ex 1 2 5 0 0, (330 # 1)%Q, (177827941, 177827942)%Z); (Ex 1 2 9 0 0, (480 # 1)%Q, (194984459, 194984460)%Z) ]%nat.
Definition erows_C300 : list brow :=
  [ (Ex 1 3 1 0 0, (0 # 1)%Q, (204173794, 204173795)%Z); (Ex 0 0 0 0 0, (65 # 1)%Q, (1000000000, 1000000000)%Z); (Ex 1 2 3 0 0, (70 # 1)%Q, (169824365, 169824366)%Z); (Ex 1 7 5 0 0, (190 # 1)%Q, (562341325, 562341326)%Z); (Ex 1 7 6 0 0, (195 # 1)%Q, (575439937, 575439938)%Z); (Ex 1 0 1 0 0, (200 # 1)%Q, (102329299, 102329300)%Z); (Ex 1 2 0 0 0, (240 # 1)%Q, (158489319, 158489320)%Z); (Ex 1 3 4 0 0, (325 # 1)%Q, (218776162, 218776163)%Z); (Ex 1 2 9 0 0, (520 # 1)%Q, (194984459, 194984460)%Z); (Ex 2 7 0 0 0, (1045 # 1)%Q, (50118723, 50118724)%Z); (Ex 2 5 8 0 0, (1510 # 1)%Q, (38018939, 38018940)%Z); (Ex 2 4 0 0 0, (2595 # 1)%Q, (25118864, 25118865)%Z) ]%nat.

(* ---- from the taps of a profile to its rows ---- *)
Definition rows_of (p : profile) : tapsR := combine (linear_powers p) (map fst (pf_rows p)).
Definition taps_of (p : profile) : tapsR := combine (tap_powers p) (tap_delays p).
Lemma taps_rows p : (pf_los p = true -> match pf_rows p with (d1, _) :: (d2, _) :: _ => d1 = d2 | _ => False end) ->
  s0 (taps_of p) = s0 (rows_of p) /\ s1 (taps_of p) = s1 (rows_of p) /\ s2 (taps_of p) = s2 (rows_of p).
Proof.
  intros H. unfold taps_of, rows_of, tap_powers, tap_delays. destruct (pf_los p); [|repeat split].
  specialize (H eq_refl). unfold linear_powers. destruct (pf_rows p) as [|[d1 x1] [|[d2 x2] rs]]; try contradiction. subst d2.
  cbn [map fst snd combine]. unfold s0, s1, s2. cbn [map Rsum fst snd]. repeat split; ring.
Qed.
Lemma combine_s0 (p d : list R) : length p = length d -> Rsum p = s0 (combine p d).
Proof.
  revert d. induction p as [|x p IH]; intros [|y d] H; try discriminate; [reflexivity|]. unfold s0 in *. cbn [combine map Rsum fst].
  rewrite <- IH by (cbn in H; lia). reflexivity.
Qed.

(* scaling powers by 1/T and delays by c *)
Lemma rms_scale (p d : list R) T c : length p = length d -> 0 < T -> 0 <= c -> 0 < s0 (combine p d) ->
  rms_delay_spread (map (fun x => x / T) p) (map (fun x => x * c) d) =
  c * sqrt (s2 (combine p d) / s0 (combine p d) - (s1 (combine p d) / s0 (combine p d)) ^ 2).
Proof.
  intros L HT C P0. unfold rms_delay_spread, mean_delay.
  assert (E : combine (map (fun x => x / T) p) (map (fun x => x * c) d) = map (fun x => (fst x / T, snd x * c)) (combine p d)).
  { clear. revert d. induction p as [|x p IH]; intros [|y d]; try reflexivity. cbn [map combine fst snd]. rewrite IH. reflexivity. }
  rewrite E, !map_map. cbn [fst snd]. rewrite Rsum_map_div, (combine_s0 p d L).
  assert (E1 : Rsum (map (fun x => fst x / T * (snd x * c)) (combine p d)) = c / T * s1 (combine p d)).
  { unfold s1. generalize (combine p d). induction l as [|x l IH]; cbn [map Rsum]; [ring|]. rewrite IH. field. lra. }
  assert (E2 : Rsum (map (fun x => fst x / T * (snd x * c) ^ 2) (combine p d)) = c ^ 2 / T * s2 (combine p d)).
  { unfold s2. generalize (combine p d). induction l as [|x l IH]; cbn [map Rsum]; [ring|]. rewrite IH. field. lra. }
  rewrite E1, E2. set (S0 := s0 (combine p d)) in *. set (S1 := s1 _). set (S2 := s2 _).
  rewrite <- (sqrt_square c) at 3 by exact C. rewrite <- sqrt_mult_alt by nra. f_equal. field. lra.
Qed.

(* every model: lower and upper bound of its spread in units of the delay unit *)
Definition spread_bounds (m : string) : Q * Q :=
  (if String.eqb m "A30" then (299985 # 10000, 300015 # 10000) else
   if String.eqb m "B100" then (1003 # 10, 1005 # 10) else
   if String.eqb m "C300" then (3002 # 10, 3004 # 10) else (9999 # 10000, 10001 # 10000))%Q.
Definition erows (m : string) : list brow :=
  if String.eqb m "A" then erows_A else if String.eqb m "B" then erows_B else if String.eqb m "C" then erows_C
  else if String.eqb m "D" then erows_D else if String.eqb m "A30" then erows_A30 else if String.eqb m "B100" then erows_B100 else erows_C300.
Lemma row_eq x y d e (l l' : tapsR) : x = y -> d = e -> l = l' -> (Rpower 10 x, d) :: l = (Rpower 10 y, e) :: l'.
Proof. congruence. Qed.
Lemma doc_rows m p : documented_profile m = Some p ->
  rows_of p = map browR (erows m) /\
  (pf_los p = true -> match pf_rows p with (d1, _) :: (d2, _) :: _ => d1 = d2 | _ => False end) /\
  check (erows m) (fst (spread_bounds m)) (snd (spread_bounds m)) = true.
Proof.
  unfold documented_profile.
  destruct (String.eqb_spec m "A") as [->|_]; [intros [= <-]|
  destruct (String.eqb_spec m "B") as [->|_]; [intros [= <-]|
  destruct (String.eqb_spec m "C") as [->|_]; [intros [= <-]|
  destruct (String.eqb_spec m "D") as [->|_]; [intros [= <-]|
  destruct (String.eqb_spec m "A30") as [->|_]; [intros [= <-]|
  destruct (String.eqb_spec m "B100") as [->|_]; [intros [= <-]|
  destruct (String.eqb_spec m "C300") as [->|_]; [intros [= <-]|discriminate]]]]]]];
  (split; [unfold rows_of, linear_powers, erows, erows_A, erows_B, erows_C, erows_D, erows_A30, erows_B100, erows_C300;
           cbn [map combine fst snd pf_rows String.eqb Ascii.eqb Bool.eqb]; unfold browR, rowR, exR, Q2R; cbn [fst snd ex_m ex_a ex_b ex_c ex_d Qnum Qden];
           repeat (apply row_eq; [cbn [INR]; lra|lra|]); reflexivity
          |split; [cbn; try (intros _; reflexivity); discriminate|vm_compute; reflexivity]]).
Qed.

Lemma spread_l chol a t p : tdl_init chol a = Ok t -> documented_profile (ta_model a) = Some p ->
  let unit := if pf_scalable p then ta_ds a else 1e-9 in
  0 <= unit ->
  Q2R (fst (spread_bounds (ta_model a))) * unit <= rms_delay_spread (tdl_mean_powers t) (tdl_delays t)
    <= Q2R (snd (spread_bounds (ta_model a))) * unit.
Proof.
  intros I D unit U. destruct (C54_profile_l chol a t p I D) as (EP & _ & _ & ED & _ & EL).
  pose proof (init_shape _ _ _ _ I D) as S. pose proof (total_pos p (sh_rows _ _ _ _ S)) as T.
  destruct (doc_rows _ _ D) as (ER & H2 & CK). destruct (taps_rows p H2) as (T0 & T1 & T2).
  apply check_spread in CK. cbv zeta in CK. rewrite <- ER, <- T0, <- T1, <- T2 in CK. destruct CK as [P0 CK].
  rewrite EP, ED. fold unit. unfold taps_of in *.
  assert (L : length (tap_powers p) = length (tap_delays p)) by (rewrite EP, ED, !map_length in EL; congruence).
  rewrite (rms_scale _ _ _ unit L T U P0). rewrite !(Rmult_comm _ unit). split; apply Rmult_le_compat_l; lra.
Qed.

(* C74 *)
Lemma C74_scalable_l chol a t : tdl_init chol a = Ok t -> In (ta_model a) ["A"; "B"; "C"; "D"] -> 0 <= ta_ds a ->
  Rabs (rms_delay_spread (tdl_mean_powers t) (tdl_delays t) - ta_ds a) <= 1e-4 * ta_ds a.
Proof.
  intros I M U.
  assert (exists p, documented_profile (ta_model a) = Some p /\ pf_scalable p = true /\ spread_bounds (ta_model a) = (9999 # 10000, 10001 # 10000)%Q) as (p & D & SC & SB).
  { cbn in M. destruct M as [<-|[<-|[<-|[<-|[]]]]]; eexists; repeat split. }
  pose proof (spread_l chol a t p I D) as B. cbv zeta in B. rewrite SC, SB in B. specialize (B U).
  unfold Q2R in B. cbn [fst snd Qnum Qden] in B. apply Rabs_le. lra.
Qed.
Lemma C74_fixed_l chol a t m : tdl_init chol a = Ok t -> ta_model a = m ->
  (m = "A30" -> Rabs (rms_delay_spread (tdl_mean_powers t) (tdl_delays t) - 30e-9) <= 0.005 * 30e-9) /\
  (m = "B100" -> Rabs (rms_delay_spread (tdl_mean_powers t) (tdl_delays t) - 100e-9) <= 0.005 * 100e-9) /\
  (m = "C300" -> Rabs (rms_delay_spread (tdl_mean_powers t) (tdl_delays t) - 300e-9) <= 0.005 * 300e-9).
Proof.
  intros I M. subst m. repeat split; intros M;
  (assert (exists p, documented_profile (ta_model a) = Some p /\ pf_scalable p = false) as (p & D & SC) by (rewrite M; eexists; split; reflexivity);
   pose proof (spread_l chol a t p I D) as B; cbv zeta in B; rewrite SC, M in B; cbn [spread_bounds String.eqb Ascii.eqb Bool.eqb fst snd] in B;
   unfold Q2R in B; cbn [Qnum Qden] in B; apply Rabs_le; lra).
Qed.
