(* Lemmas about the conversions between impulse responses, taps and frequency responses: C50-C52, C73. *)
From Coq Require Import Reals String List Bool Arith Lia Lra ZArith.
From Verif Require Import M_Base L_Base L_Trig M_Geometry M_Cplx L_Coeff M_Convert S_Convert L_Csum L_Grids.
Import ListNotations.
Open Scope R_scope.

(* ---- C50 ---- *)
Lemma tau_at_delay tau b r ra t ta p : tau_at tau b r ra t ta p = path_delay tau b r ra t ta p.
Proof. destruct tau; reflexivity. Qed.
Lemma num_taps_lags l_min l_max : num_taps l_min l_max = lags l_min l_max.
Proof. unfold num_taps, lags. f_equal. lia. Qed.
Lemma energy_mean n1 n2 n3 n4 h : (0 < n1)%nat -> (0 < n2)%nat -> (0 < n3)%nat -> (0 < n4)%nat ->
  energy n1 n2 n3 n4 h = INR n1 * INR n2 * INR n3 * INR n4 * mean4 n1 n2 n3 n4 (fun i j k l => cnorm2 (h i j k l)).
Proof.
  intros N1 N2 N3 N4.
  assert (P1 : 0 < INR n1) by (apply (lt_INR 0); exact N1). assert (P2 : 0 < INR n2) by (apply (lt_INR 0); exact N2).
  assert (P3 : 0 < INR n3) by (apply (lt_INR 0); exact N3). assert (P4 : 0 < INR n4) by (apply (lt_INR 0); exact N4).
  unfold energy, mean4. rewrite Rmult_comm. unfold Rdiv. rewrite Rmult_assoc, Rinv_l, Rmult_1_r by (repeat apply Rmult_integral_contrapositive_currified; lra).
  repeat (apply sumR_ext; intros ? _). unfold cnorm2. ring.
Qed.

Lemma C50_formula D fr a tau b r ra t ta s k : (k < length fr)%nat ->
  cir_to_ofdm D fr a tau false b r ra t ta s k =
  csumN (d_path D) (fun p => cmul (a b r ra t ta p s) (turn (nth k fr 0 * path_delay tau b r ra t ta p))).
Proof.
  intros _. unfold cir_to_ofdm, turn. apply csumN_ext. intros p _. rewrite tau_at_delay. do 2 f_equal. ring.
Qed.

Lemma C50_linear D fr a a' z tau b r ra t ta s k :
  cir_to_ofdm D fr (fun b r ra t ta p s => cadd (a b r ra t ta p s) (cmul z (a' b r ra t ta p s))) tau false b r ra t ta s k =
  cadd (cir_to_ofdm D fr a tau false b r ra t ta s k) (cmul z (cir_to_ofdm D fr a' tau false b r ra t ta s k)).
Proof.
  unfold cir_to_ofdm. rewrite <- csumN_mul_l, <- csumN_add. apply csumN_ext. intros; ring.
Qed.

Lemma C50_shift D fr a tau delta b r ra t ta s k : (k < length fr)%nat ->
  cir_to_ofdm D fr a (later delta tau) false b r ra t ta s k =
  cmul (turn (nth k fr 0 * delta)) (cir_to_ofdm D fr a tau false b r ra t ta s k).
Proof.
  intros K. rewrite !C50_formula by exact K. rewrite <- csumN_mul_l. apply csumN_ext. intros p _.
  assert (path_delay (later delta tau) b r ra t ta p = path_delay tau b r ra t ta p + delta) as -> by (destruct tau; reflexivity).
  unfold turn. replace (- (2 * PI * (nth k fr 0 * (path_delay tau b r ra t ta p + delta)))) with
    (- (2 * PI * (nth k fr 0 * delta)) + - (2 * PI * (nth k fr 0 * path_delay tau b r ra t ta p))) by ring.
  rewrite cexpi_add. ring.
Qed.

(* ---- normalisation ---- *)
Lemma sumR_pos n f k : (forall j, (j < n)%nat -> 0 <= f j) -> (k < n)%nat -> 0 < f k -> 0 < sumR n f.
Proof.
  intros P K F. replace n with (k + S (n - S k))%nat by lia. rewrite sumR_split, sumR_shift.
  replace (k + 0)%nat with k by lia.
  assert (0 <= sumR k f) by (apply sumR_nonneg; intros; apply P; lia).
  assert (0 <= sumR (n - S k) (fun j => f (k + S j)%nat)) by (apply sumR_nonneg; intros; apply P; lia). lra.
Qed.
Lemma sumR_zero_all n f : (forall j, (j < n)%nat -> 0 <= f j) -> sumR n f = 0 -> forall k, (k < n)%nat -> f k = 0.
Proof.
  intros P E k K. destruct (Rle_lt_or_eq_dec 0 (f k) (P k K)) as [L|L]; [|symmetry; exact L].
  pose proof (sumR_pos n f k P K L). lra.
Qed.

Lemma scaled_power h c : 0 < c -> cnorm2 (divide_no_nan h (sqrt c)) = / c * cnorm2 h.
Proof.
  intros C. pose proof (sqrt_lt_R0 c C) as S. unfold divide_no_nan.
  destruct (Reqb (sqrt c) 0) eqn:E; [apply Reqb_true in E; lra|]. unfold cnorm2; cbn.
  rewrite <- (sqrt_sqrt c) at 5 by lra. field. lra.
Qed.
Lemma no_nan_scale h c : 0 < c -> divide_no_nan h (sqrt c) = cmul (creal (/ sqrt c)) h.
Proof.
  intros C. pose proof (sqrt_lt_R0 c C) as S. unfold divide_no_nan.
  destruct (Reqb (sqrt c) 0) eqn:E; [apply Reqb_true in E; lra|]. apply cplx_eq; cbn; field; lra.
Qed.
Lemma no_nan_zero h : divide_no_nan h (sqrt 0) = c0.
Proof. unfold divide_no_nan. rewrite sqrt_0. destruct (Reqb 0 0) eqn:E; [reflexivity|]. apply Reqb_false in E. congruence. Qed.

(* a normalised block [n1 x n2 x n3 x n4] *)
Lemma mean4_normal n1 n2 n3 n4 (h : nat -> nat -> nat -> nat -> cplx) :
  (0 < n1)%nat -> (0 < n2)%nat -> (0 < n3)%nat -> (0 < n4)%nat ->
  let c := mean4 n1 n2 n3 n4 (fun i j k l => cnorm2 (h i j k l)) in
  (0 < c /\ mean4 n1 n2 n3 n4 (fun i j k l => cnorm2 (divide_no_nan (h i j k l) (sqrt c))) = 1) \/
  (c = 0 /\ forall i j k l, (i < n1)%nat -> (j < n2)%nat -> (k < n3)%nat -> (l < n4)%nat -> h i j k l = c0).
Proof.
  intros N1 N2 N3 N4 c.
  assert (P1 : 0 < INR n1) by (apply (lt_INR 0); exact N1). assert (P2 : 0 < INR n2) by (apply (lt_INR 0); exact N2).
  assert (P3 : 0 < INR n3) by (apply (lt_INR 0); exact N3). assert (P4 : 0 < INR n4) by (apply (lt_INR 0); exact N4).
  assert (PN : 0 < INR n1 * INR n2 * INR n3 * INR n4) by (repeat apply Rmult_lt_0_compat; assumption).
  set (S := sumR n1 (fun a => sumR n2 (fun b => sumR n3 (fun k => sumR n4 (fun l => cnorm2 (h a b k l)))))) in *.
  assert (Ec : c = S / (INR n1 * INR n2 * INR n3 * INR n4)) by reflexivity.
  assert (NN : forall a b k l, 0 <= cnorm2 (h a b k l)) by (intros; apply cnorm2_nonneg).
  assert (S3 : forall a b k, 0 <= sumR n4 (fun l => cnorm2 (h a b k l))) by (intros; apply sumR_nonneg; intros; apply NN).
  assert (S2 : forall a b, 0 <= sumR n3 (fun k => sumR n4 (fun l => cnorm2 (h a b k l)))) by (intros; apply sumR_nonneg; intros; apply S3).
  assert (S1 : forall a, 0 <= sumR n2 (fun b => sumR n3 (fun k => sumR n4 (fun l => cnorm2 (h a b k l))))) by (intros; apply sumR_nonneg; intros; apply S2).
  assert (S0 : 0 <= S) by (apply sumR_nonneg; intros; apply S1).
  destruct (Rle_lt_or_eq_dec 0 S S0) as [L|L].
  - left. assert (C : 0 < c) by (rewrite Ec; apply Rdiv_lt_0_compat; assumption). split; [exact C|].
    unfold mean4.
    rewrite (sumR_ext n1 _ (fun a => / c * sumR n2 (fun b => sumR n3 (fun k => sumR n4 (fun l => cnorm2 (h a b k l)))))).
    + rewrite sumR_scale. fold S. rewrite Ec. field. repeat split; lra.
    + intros a _. rewrite <- sumR_scale. apply sumR_ext. intros b _. rewrite <- sumR_scale. apply sumR_ext. intros k _.
      rewrite <- sumR_scale. apply sumR_ext. intros l _. apply scaled_power. exact C.
  - right. split; [rewrite Ec, <- L; field; repeat split; lra|]. intros i j k l I J K L'.
    apply cnorm2_zero. symmetry in L.
    pose proof (sumR_zero_all _ _ (fun a _ => S1 a) L i I) as E1.
    pose proof (sumR_zero_all _ _ (fun b _ => S2 i b) E1 j J) as E2.
    pose proof (sumR_zero_all _ _ (fun k _ => S3 i j k) E2 k K) as E3.
    exact (sumR_zero_all _ _ (fun l _ => NN i j k l) E3 l L').
Qed.

Lemma C50_normal D fr a tau b r t :
  (0 < d_rxa D)%nat -> (0 < d_txa D)%nat -> (0 < d_time D)%nat -> (0 < length fr)%nat ->
  let h := cir_to_ofdm D fr a tau false in
  let g := cir_to_ofdm D fr a tau true in
  (energy (d_rxa D) (d_txa D) (d_time D) (length fr) (fun ra ta s k => g b r ra t ta s k) =
     INR (d_rxa D) * INR (d_txa D) * INR (d_time D) * INR (length fr) /\
   exists c, 0 < c /\ forall ra ta s k, g b r ra t ta s k = cmul (creal c) (h b r ra t ta s k)) \/
  (forall ra ta s k, (ra < d_rxa D)%nat -> (ta < d_txa D)%nat -> (s < d_time D)%nat -> (k < length fr)%nat ->
     h b r ra t ta s k = c0 /\ g b r ra t ta s k = c0).
Proof.
  intros N1 N2 N3 N4 h g.
  destruct (mean4_normal _ _ _ _ (fun ra ta s k => h b r ra t ta s k) N1 N2 N3 N4) as [[C E]|[C E]].
  - left. split; [rewrite energy_mean by assumption; etransitivity; [apply f_equal; exact E|apply Rmult_1_r]|]. eexists. split; [apply Rinv_0_lt_compat, sqrt_lt_R0; exact C|].
    intros. unfold g, cir_to_ofdm. rewrite no_nan_scale; [reflexivity|exact C].
  - right. intros ra ta s k A1 A2 A3 A4. split; [apply E; assumption|].
    unfold g, cir_to_ofdm. change (mean4 _ _ _ _ _) with (mean4 (d_rxa D) (d_txa D) (d_time D) (length fr) (fun ra' ta' s' k' => cnorm2 (h b r ra' t ta' s' k'))).
    rewrite C. apply no_nan_zero.
Qed.

(* ---- C51 ---- *)
Lemma sinc_0 : sinc 0 = 1.
Proof. unfold sinc. destruct (Reqb 0 0) eqn:E; [reflexivity|]. apply Reqb_false in E. congruence. Qed.
Lemma sinc_int z : z <> 0%Z -> sinc (IZR z) = 0.
Proof.
  intros N. unfold sinc. destruct (Reqb (IZR z) 0) eqn:E.
  - apply Reqb_true in E. apply eq_IZR in E. congruence.
  - rewrite (sin_eq_0_1 (PI * IZR z)); [|exists z; ring]. unfold Rdiv. ring.
Qed.

Lemma C51_formula D W a tau l_min l_max b r ra t ta s k : (k < lags l_min l_max)%nat ->
  cir_to_time D W a tau l_min l_max false b r ra t ta s k =
  csumN (d_path D) (fun p => cmul (a b r ra t ta p s) (creal (sinc (IZR (l_min + Z.of_nat k) - W * path_delay tau b r ra t ta p)))).
Proof.
  intros _. unfold cir_to_time. apply csumN_ext. intros p _. rewrite tau_at_delay. do 3 f_equal. rewrite plus_IZR, <- INR_IZR_INZ. ring.
Qed.

Lemma C51_whole D W a tau l_min l_max b r ra t ta s k (lag : nat -> Z) :
  (k < lags l_min l_max)%nat ->
  (forall p, (p < d_path D)%nat -> W * path_delay tau b r ra t ta p = IZR (lag p)) ->
  cir_to_time D W a tau l_min l_max false b r ra t ta s k =
  csumN (d_path D) (fun p => if Z.eqb (lag p) (l_min + Z.of_nat k) then a b r ra t ta p s else c0).
Proof.
  intros K E. rewrite C51_formula by exact K. apply csumN_ext. intros p Hp. rewrite E by exact Hp.
  rewrite <- minus_IZR. destruct (Z.eqb_spec (lag p) (l_min + Z.of_nat k)) as [Q|Q].
  - replace (l_min + Z.of_nat k - lag p)%Z with 0%Z by lia. rewrite sinc_0. apply cplx_eq; cbn; ring.
  - rewrite sinc_int by lia. apply cplx_eq; cbn; ring.
Qed.

(* path delays up to the maximum lie in the recommended window: no on-grid path is lost *)
Lemma C51_cover D W a tau tau_max b r ra t ta s (lag : nat -> Z) :
  0 <= W ->
  (forall p, (p < d_path D)%nat -> 0 <= path_delay tau b r ra t ta p <= tau_max /\ W * path_delay tau b r ra t ta p = IZR (lag p)) ->
  let '(l_min, l_max) := time_lag W tau_max in
  csumN (lags l_min l_max) (fun k => cir_to_time D W a tau l_min l_max false b r ra t ta s k) =
  csumN (d_path D) (fun p => a b r ra t ta p s).
Proof.
  intros HW E. pose proof (C49_lag W tau_max HW) as G. destruct (time_lag W tau_max) as [l_min l_max].
  destruct G as (G1 & G2 & _).
  rewrite (csumN_ext _ _ (fun k => csumN (d_path D) (fun p => if Z.eqb (lag p) (l_min + Z.of_nat k) then a b r ra t ta p s else c0))).
  2:{ intros k K. apply C51_whole; [exact K|]. intros p Hp. apply (proj2 (E p Hp)). }
  rewrite csumN_swap. apply csumN_ext. intros p Hp. destruct (E p Hp) as [B Q].
  destruct (G2 _ B) as [B1 B2]. rewrite Q in B1, B2.
  assert (l_min + 6 <= lag p)%Z by (apply le_IZR; rewrite plus_IZR; lra).
  assert (lag p <= l_max - 6)%Z by (apply le_IZR; rewrite minus_IZR; lra).
  rewrite (csumN_single _ _ (Z.to_nat (lag p - l_min))).
  - destruct (Z.eqb_spec (lag p) (l_min + Z.of_nat (Z.to_nat (lag p - l_min)))) as [_|N]; [reflexivity|lia].
  - unfold lags. lia.
  - intros j _ J. destruct (Z.eqb_spec (lag p) (l_min + Z.of_nat j)) as [N|_]; [lia|reflexivity].
Qed.

Lemma C51_normal D W a tau l_min l_max b r t :
  (0 < d_rxa D)%nat -> (0 < d_txa D)%nat -> (0 < d_time D)%nat -> (l_min <= l_max)%Z ->
  let L := lags l_min l_max in
  let h := cir_to_time D W a tau l_min l_max false in
  let g := cir_to_time D W a tau l_min l_max true in
  (energy (d_rxa D) (d_txa D) (d_time D) L (fun ra ta s k => g b r ra t ta s k) =
     INR (d_rxa D) * INR (d_txa D) * INR (d_time D) /\
   exists c, 0 < c /\ forall ra ta s k, g b r ra t ta s k = cmul (creal c) (h b r ra t ta s k)) \/
  (forall ra ta s k, (ra < d_rxa D)%nat -> (ta < d_txa D)%nat -> (s < d_time D)%nat -> (k < L)%nat ->
     h b r ra t ta s k = c0 /\ g b r ra t ta s k = c0).
Proof.
  intros N1 N2 N3 N4 L h g.
  assert (HL : (0 < L)%nat) by (unfold L, lags; lia).
  assert (PL : 0 < INR L) by (apply (lt_INR 0); exact HL).
  assert (P1 : 0 < INR (d_rxa D)) by (apply (lt_INR 0); exact N1). assert (P2 : 0 < INR (d_txa D)) by (apply (lt_INR 0); exact N2).
  assert (P3 : 0 < INR (d_time D)) by (apply (lt_INR 0); exact N3).
  (* the mean of the total energy is L times the mean over the taps *)
  assert (M : forall f, mean3 (d_rxa D) (d_txa D) (d_time D) (fun ra ta s => sumR L (f ra ta s)) =
                        INR L * mean4 (d_rxa D) (d_txa D) (d_time D) L f).
  { intros f. unfold mean3, mean4. field. repeat split; lra. }
  set (c := mean3 (d_rxa D) (d_txa D) (d_time D) (fun ra ta s => sumR L (fun k => cnorm2 (h b r ra t ta s k)))).
  destruct (mean4_normal _ _ _ _ (fun ra ta s k => h b r ra t ta s k) N1 N2 N3 HL) as [[C E]|[C E]].
  - left. assert (Pc : 0 < c) by (unfold c; rewrite M; apply Rmult_lt_0_compat; assumption). split.
    + rewrite energy_mean by assumption. set (c4 := mean4 _ _ _ _ _) in C, E.
      assert (Ec : c = INR L * c4) by (unfold c; rewrite M; reflexivity).
      assert (X : mean4 (d_rxa D) (d_txa D) (d_time D) L (fun ra ta s k => cnorm2 (g b r ra t ta s k)) =
                  / INR L * mean4 (d_rxa D) (d_txa D) (d_time D) L (fun ra ta s k => cnorm2 (divide_no_nan (h b r ra t ta s k) (sqrt c4)))).
      { unfold mean4. unfold Rdiv. rewrite <- Rmult_assoc. f_equal.
        rewrite <- sumR_scale. apply sumR_ext. intros ra _. rewrite <- sumR_scale. apply sumR_ext. intros ta _.
        rewrite <- sumR_scale. apply sumR_ext. intros s _. rewrite <- sumR_scale. apply sumR_ext. intros k _.
        rewrite scaled_power by exact C. unfold g, cir_to_time. rewrite num_taps_lags.
        change (mean3 _ _ _ _) with c.
        change (csumN _ _) with (h b r ra t ta s k).
        rewrite scaled_power by exact Pc. rewrite Ec. field. split; lra. }
      rewrite X, E. field. lra.
    + exists (/ sqrt c). split; [apply Rinv_0_lt_compat, sqrt_lt_R0; exact Pc|].
      intros. unfold g, cir_to_time. rewrite num_taps_lags. rewrite no_nan_scale; [reflexivity|exact Pc].
  - right. intros ra ta s k A1 A2 A3 A4. split; [apply E; assumption|].
    unfold g, cir_to_time. rewrite num_taps_lags. change (mean3 _ _ _ _) with c. unfold c. rewrite M, C, Rmult_0_r. apply no_nan_zero.
Qed.

(* ---- C52 ---- *)
Lemma combine_seq {A} (d : A) l : combine (seq 0 (length l)) l = map (fun i => (i, nth i l d)) (seq 0 (length l)).
Proof.
  assert (G : forall l k, combine (seq k (length l)) l = map (fun i => (i, nth (i - k) l d)) (seq k (length l))).
  { clear. induction l as [|x l IH]; intros k; [reflexivity|]. cbn [length seq combine map]. f_equal.
    - rewrite Nat.sub_diag. reflexivity.
    - rewrite IH. apply map_ext_in. intros i Hi. apply in_seq in Hi. f_equal.
      replace (i - k)%nat with (S (i - S k)) by lia. reflexivity. }
  rewrite G. apply map_ext. intros; rewrite Nat.sub_0_r; reflexivity.
Qed.
Lemma filter_map {A B} (f : A -> B) p l : filter p (map f l) = map f (filter (fun x => p (f x)) l).
Proof.
  induction l as [|x l IH]; [reflexivity|]. cbn [map filter]. destruct (p (f x)); cbn [map]; rewrite IH; reflexivity.
Qed.
Lemma filter_none {A} p (l : list A) : (forall x, In x l -> p x = false) -> filter p l = [].
Proof.
  induction l as [|x l IH]; intros E; [reflexivity|]. cbn. rewrite E by (left; reflexivity). apply IH. intros; apply E; right; assumption.
Qed.

Lemma slice_indices cp m B n : (cp < m)%nat -> (n * m <= B)%nat ->
  filter (fun i => (cp <=? i)%nat && (i <? B)%nat && Nat.eqb ((i - cp) mod m) 0) (seq 0 (n * m)) =
  map (fun s => (cp + s * m)%nat) (seq 0 n).
Proof.
  intros C. induction n as [|n IH]; intros HB; [reflexivity|].
  replace (S n * m)%nat with (n * m + m)%nat in * by lia.
  rewrite seq_app, filter_app, seq_S, map_app, IH by lia. f_equal. cbn [plus].
  replace m with (cp + (1 + (m - cp - 1)))%nat at 2 by lia. rewrite !seq_app, !filter_app.
  assert (X : forall j, (j < m)%nat -> (0 < j)%nat -> ((n * m + j) mod m <> 0)%nat).
  { intros j J1 J2. rewrite Nat.add_comm, Nat.mod_add, Nat.mod_small by lia. lia. }
  rewrite (filter_none _ (seq (n * m) cp)), (filter_none _ (seq (n * m + cp + 1) _)).
  - cbn [seq filter app map].
    destruct (Nat.leb_spec cp (n * m + cp)); [|lia]. destruct (Nat.ltb_spec (n * m + cp) B); [|lia].
    replace (n * m + cp - cp)%nat with (n * m)%nat by lia. rewrite Nat.mod_mul by lia. cbn. f_equal. lia.
  - intros i Hi. apply in_seq in Hi. apply andb_false_intro2. apply Nat.eqb_neq.
    replace (i - cp)%nat with (n * m + (i - cp - n * m))%nat by lia. apply X; lia.
  - intros i Hi. apply in_seq in Hi. destruct (Nat.leb_spec cp i); [|reflexivity]. apply andb_false_intro2. apply Nat.eqb_neq.
    destruct n as [|n]; [lia|]. replace (i - cp)%nat with (n * m + (m + (i - S n * m) - cp))%nat by lia.
    replace (n * m + (m + (i - S n * m) - cp))%nat with ((m + (i - S n * m) - cp) + n * m)%nat by lia.
    rewrite Nat.mod_add, Nat.mod_small by lia. lia.
Qed.

Lemma py_slice_symbols {A} (d : A) cp m n (l : list A) : (cp < m)%nat -> (n * m <= length l)%nat ->
  py_slice cp (n * m) m l = map (fun s => nth (cp + s * m) l d) (seq 0 n).
Proof.
  intros C L. unfold py_slice. rewrite (combine_seq d), filter_map, map_map. cbn [fst snd].
  replace (length l) with (n * m + (length l - n * m))%nat by lia. rewrite seq_app, filter_app, slice_indices by lia.
  rewrite (filter_none _ (seq (0 + n * m) _)).
  - rewrite app_nil_r, map_map. reflexivity.
  - intros i Hi. apply in_seq in Hi. destruct (Nat.ltb_spec i (n * m)); [lia|]. rewrite andb_false_r. reflexivity.
Qed.

Lemma nth_map_seq {A} (f : nat -> A) n i d : (i < n)%nat -> nth i (map f (seq 0 n)) d = f i.
Proof.
  intros H. rewrite (nth_indep _ d (f 0%nat)) by (rewrite map_length, seq_length; exact H).
  rewrite (map_nth f), seq_nth by exact H. reflexivity.
Qed.
Lemma tf_roll_length s l : length (tf_roll s l) = length l.
Proof. unfold tf_roll. rewrite map_length, seq_length. reflexivity. Qed.
Lemma fft_length l : length (fft l) = length l.
Proof. unfold fft. rewrite map_length, seq_length. reflexivity. Qed.
Lemma tf_roll_nth s l i : (i < length l)%nat ->
  nth i (tf_roll s l) c0 = nth (Z.to_nat ((Z.of_nat i - s) mod Z.of_nat (length l))) l c0.
Proof. intros H. unfold tf_roll. rewrite nth_map_seq by exact H. reflexivity. Qed.

Lemma spectrum l l_min i : (i < length l)%nat ->
  nth i (fftshift (fft (tf_roll l_min l))) c0 =
  csumN (length l) (fun k => cmul (nth k l c0) (turn (centred (length l) i * IZR (l_min + Z.of_nat k) / INR (length l)))).
Proof.
  intros Hi. set (n := length l) in *.
  assert (Ln : length (fft (tf_roll l_min l)) = n) by (rewrite fft_length, tf_roll_length; reflexivity).
  assert (Hn : 0 < INR n) by (apply (lt_INR 0); lia).
  unfold fftshift. rewrite tf_roll_nth by (rewrite Ln; exact Hi). rewrite Ln.
  set (k := Z.to_nat ((Z.of_nat i - Z.of_nat (n / 2)) mod Z.of_nat n)).
  assert (Bk : (0 <= (Z.of_nat i - Z.of_nat (n / 2)) mod Z.of_nat n < Z.of_nat n)%Z) by (apply Z.mod_pos_bound; lia).
  assert (Hk : (k < n)%nat) by (unfold k; lia).
  unfold fft. rewrite tf_roll_length. fold n. rewrite nth_map_seq by exact Hk.
  (* the summand as a periodic function of the lag *)
  pose (x := (Z.of_nat i - Z.of_nat (n / 2))%Z).
  pose (f := fun z : Z => cmul (nth (Z.to_nat (z mod Z.of_nat n)) l c0) (turn (IZR x * IZR (l_min + z) / INR n))).
  assert (Pf : forall z, f (z + Z.of_nat n)%Z = f z).
  { intros z. unfold f. replace ((z + Z.of_nat n) mod Z.of_nat n)%Z with (z mod Z.of_nat n)%Z.
    2:{ replace (z + Z.of_nat n)%Z with (z + 1 * Z.of_nat n)%Z by lia. rewrite Z.mod_add by lia. reflexivity. }
    f_equal. unfold turn. rewrite <- (cexpi_turns _ x). f_equal. rewrite !plus_IZR, <- INR_IZR_INZ. field. lra. }
  rewrite (csumN_ext _ _ (fun j => f (Z.of_nat j + - l_min)%Z)).
  - rewrite csumN_rotate_Z by (try lia; exact Pf). apply csumN_ext. intros j Hj. unfold f. rewrite Z.mod_small by lia.
    rewrite Nat2Z.id. unfold centred, x. rewrite minus_IZR, <- !INR_IZR_INZ. reflexivity.
  - intros j Hj. rewrite tf_roll_nth by exact Hj. fold n. unfold f.
    replace (Z.of_nat j + - l_min)%Z with (Z.of_nat j - l_min)%Z by lia. f_equal.
    replace (l_min + (Z.of_nat j - l_min))%Z with (Z.of_nat j) by lia.
    assert (Ek : INR k = IZR x - IZR (x / Z.of_nat n) * INR n).
    { unfold k. rewrite INR_IZR_INZ, Z2Nat.id by lia. rewrite (INR_IZR_INZ n), <- mult_IZR, <- minus_IZR. f_equal. fold x.
      pose proof (Z.div_mod x (Z.of_nat n)). lia. }
    unfold turn. rewrite <- (cexpi_turns (- (2 * PI * (IZR x * IZR (Z.of_nat j) / INR n))) (x / Z.of_nat n * Z.of_nat j)). f_equal.
    rewrite Ek, mult_IZR, <- INR_IZR_INZ. field. lra.
Qed.

Lemma C52_l h_t L g l_min :
  (0 < rg_fft g)%nat -> (L <= rg_fft g)%nat ->
  (forall row, In row h_t -> length row = L) -> ((rg_fft g + rg_cp g) * rg_symbols g <= length h_t)%nat ->
  exists out, time_to_ofdm h_t L g l_min = Ok out /\ length out = rg_symbols g /\
  forall s, (s < rg_symbols g)%nat ->
    length (nth s out []) = rg_fft g /\
    forall i, (i < rg_fft g)%nat ->
      nth i (nth s out []) c0 =
      csumN L (fun k => cmul (nth k (nth (rg_cp g + s * (rg_fft g + rg_cp g)) h_t []) c0)
                             (turn (centred (rg_fft g) i * IZR (l_min + Z.of_nat k) / INR (rg_fft g)))).
Proof.
  intros N LN HL HT. unfold time_to_ofdm, rg_time_samples.
  destruct (Nat.eqb_spec (rg_fft g) 0) as [X|_]; [lia|]. destruct (Nat.ltb_spec (rg_fft g) L) as [X|_]; [lia|].
  set (m := (rg_fft g + rg_cp g)%nat) in *.
  rewrite (Nat.mul_comm m (rg_symbols g)) in *.
  rewrite (py_slice_symbols [] (rg_cp g) m (rg_symbols g) h_t) by (unfold m in *; lia).
  eexists. split; [reflexivity|]. split; [rewrite !map_length, seq_length; reflexivity|].
  intros s Hs. rewrite map_map.
  assert (E : forall (f : nat -> list cplx), nth s (map f (seq 0 (rg_symbols g))) [] = f s) by (intros f; apply nth_map_seq; exact Hs).
  rewrite !E. set (row := nth (rg_cp g + s * m) h_t []).
  assert (LR : length row = L).
  { apply HL. apply nth_In. apply Nat.lt_le_trans with (S s * m)%nat; [unfold m; lia|]. apply Nat.le_trans with (rg_symbols g * m)%nat; [apply Nat.mul_le_mono_r; lia|exact HT]. }
  assert (LP : length (row ++ repeat c0 (rg_fft g - L)) = rg_fft g) by (rewrite app_length, repeat_length, LR; lia).
  split.
  - unfold fftshift. rewrite tf_roll_length, fft_length, tf_roll_length. exact LP.
  - intros i Hi. rewrite spectrum by (rewrite LP; exact Hi). rewrite LP.
    assert (SP : forall F, csumN (rg_fft g) F = cadd (csumN L F) (csumN (rg_fft g - L) (fun k => F (L + k)%nat))).
    { intros F. rewrite <- csumN_split. f_equal. lia. }
    rewrite SP.
    rewrite (csumN_zero (rg_fft g - L)).
    + transitivity (csumN L (fun k => cmul (nth k (row ++ repeat c0 (rg_fft g - L)) c0)
          (turn (centred (rg_fft g) i * IZR (l_min + Z.of_nat k) / INR (rg_fft g))))); [ring|].
      apply csumN_ext. intros k Hk. rewrite app_nth1 by lia. reflexivity.
    + intros k Hk. rewrite app_nth2 by lia. rewrite nth_repeat. ring.
Qed.

Lemma C52_err h_t L g l_min : (0 < rg_fft g)%nat -> (rg_fft g < L)%nat ->
  exists m, time_to_ofdm h_t L g l_min = Err (InvalidArgumentError m).
Proof.
  intros N H. unfold time_to_ofdm. destruct (Nat.eqb_spec (rg_fft g) 0) as [X|_]; [lia|].
  destruct (Nat.ltb_spec (rg_fft g) L) as [_|X]; [|lia]. eexists; reflexivity.
Qed.

(* ---- C73 ---- *)
Lemma C73_l D g spacing a tau l_min l_max b r ra t ta (lag : nat -> Z) :
  0 < spacing -> (0 < rg_fft g)%nat -> (lags l_min l_max <= rg_fft g)%nat ->
  ((rg_fft g + rg_cp g) * rg_symbols g <= d_time D)%nat ->
  let W := INR (rg_fft g) * spacing in
  (forall p, (p < d_path D)%nat -> (l_min <= lag p <= l_max)%Z /\ W * path_delay tau b r ra t ta p = IZR (lag p)) ->
  let L := lags l_min l_max in
  let taps := cir_to_time D W a tau l_min l_max false in
  let h_t := map (fun s => map (fun k => taps b r ra t ta s k) (seq 0 L)) (seq 0 (d_time D)) in
  exists out, time_to_ofdm h_t L g l_min = Ok out /\
  forall s i, (s < rg_symbols g)%nat -> (i < rg_fft g)%nat ->
    nth i (nth s out []) c0 =
    cir_to_ofdm D (subcarrier_frequencies (rg_fft g) spacing) a tau false b r ra t ta (rg_cp g + s * (rg_fft g + rg_cp g))%nat i.
Proof.
  intros SP N LN HT W HP L taps h_t.
  destruct (C52_l h_t L g l_min N LN) as (out & E & _ & P).
  { intros row Hr. unfold h_t in Hr. apply in_map_iff in Hr. destruct Hr as (s & <- & _). rewrite map_length, seq_length. reflexivity. }
  { unfold h_t. rewrite map_length, seq_length. exact HT. }
  exists out. split; [exact E|]. intros s i Hs Hi. destruct (P s Hs) as [_ P']. rewrite P' by exact Hi. clear P P' E.
  destruct (C49_sub (rg_fft g) spacing) as [LS PS].
  rewrite C50_formula by (rewrite LS; exact Hi). rewrite PS by exact Hi.
  set (time := (rg_cp g + s * (rg_fft g + rg_cp g))%nat).
  assert (Ht : (time < d_time D)%nat).
  { apply Nat.lt_le_trans with ((rg_fft g + rg_cp g) * S s)%nat; [unfold time; lia|].
    apply Nat.le_trans with ((rg_fft g + rg_cp g) * rg_symbols g)%nat; [apply Nat.mul_le_mono_l; lia|exact HT]. }
  assert (ER : nth time h_t [] = map (fun k => taps b r ra t ta time k) (seq 0 L)).
  { unfold h_t. rewrite nth_map_seq by exact Ht. reflexivity. }
  rewrite ER.
  rewrite (csumN_ext L _ (fun k => csumN (d_path D) (fun p => if Z.eqb (lag p) (l_min + Z.of_nat k)
      then cmul (a b r ra t ta p time) (turn (centred (rg_fft g) i * IZR (lag p) / INR (rg_fft g))) else c0))).
  - rewrite csumN_swap. apply csumN_ext. intros p Hp. destruct (HP p Hp) as [B Q].
    rewrite (csumN_single _ _ (Z.to_nat (lag p - l_min))).
    + destruct (Z.eqb_spec (lag p) (l_min + Z.of_nat (Z.to_nat (lag p - l_min)))) as [_|X]; [|lia].
      do 2 f_equal. rewrite <- Q. unfold W. assert (0 < INR (rg_fft g)) by (apply (lt_INR 0); exact N). field. lra.
    + unfold L, lags. lia.
    + intros j _ J. destruct (Z.eqb_spec (lag p) (l_min + Z.of_nat j)) as [X|_]; [lia|reflexivity].
  - intros k Hk. rewrite nth_map_seq by exact Hk. unfold taps.
    rewrite (C51_whole D W a tau l_min l_max b r ra t ta time k lag Hk (fun p Hp => proj2 (HP p Hp))).
    rewrite <- csumN_mul_r. apply csumN_ext. intros p _.
    destruct (Z.eqb_spec (lag p) (l_min + Z.of_nat k)) as [->|_]; [reflexivity|ring].
Qed.
