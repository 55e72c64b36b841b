(* Energy of the taps of a discrete-time channel against the mean power over the band: Bessel's inequality
   for the functions e^{j 2 pi f k / W} on a band of width W. *)
From Coq Require Import Reals String List Bool Arith Lia Lra ZArith.
From Verif Require Import M_Base L_Base M_Cplx L_Coeff M_Convert S_Convert L_Csum L_Convert S_Energy.
Import ListNotations.
Open Scope R_scope.

Lemma derivable_sumR n (F : nat -> R -> R) (f : nat -> R -> R) t :
  (forall k, (k < n)%nat -> derivable_pt_lim (F k) t (f k t)) ->
  derivable_pt_lim (fun x => sumR n (fun k => F k x)) t (sumR n (fun k => f k t)).
Proof.
  induction n; intros H; cbn [sumR].
  - apply derivable_pt_lim_const.
  - apply (derivable_pt_lim_plus (fun x => sumR n (fun k => F k x)) (F n)); [apply IHn; intros; apply H; lia | apply H; lia].
Qed.

Lemma continuity_sumR n (f : nat -> R -> R) : (forall k, continuity (f k)) -> continuity (fun x => sumR n (fun k => f k x)).
Proof.
  intros H. induction n; cbn [sumR]; intros t.
  - apply continuity_pt_const. intros x y; reflexivity.
  - apply (continuity_pt_plus (fun x => sumR n (fun k => f k x)) (f n)); [apply IHn | apply H].
Qed.

(* antiderivatives of cos (w t) and sin (w t) *)
Definition icos (w t : R) : R := if Reqb w 0 then t else sin (w * t) / w.
Definition isin (w t : R) : R := if Reqb w 0 then 0 else - cos (w * t) / w.

Lemma icos_derive w t : derivable_pt_lim (icos w) t (cos (w * t)).
Proof.
  unfold icos. destruct (Reqb w 0) eqn:E.
  - apply Reqb_true in E. subst w. rewrite Rmult_0_l, cos_0. apply derivable_pt_lim_id.
  - apply Reqb_false in E.
    assert (D : derivable_pt (fun t => sin (w * t) / w) t) by (reg; exact E).
    assert (Q : derive_pt (fun t => sin (w * t) / w) t D = cos (w * t)) by (reg; field; exact E).
    destruct D as [l Hl]. cbn in Q. subst l. exact Hl.
Qed.

Lemma isin_derive w t : derivable_pt_lim (isin w) t (sin (w * t)).
Proof.
  unfold isin. destruct (Reqb w 0) eqn:E.
  - apply Reqb_true in E. subst w. rewrite Rmult_0_l, sin_0. apply derivable_pt_lim_const.
  - apply Reqb_false in E.
    assert (D : derivable_pt (fun t => - cos (w * t) / w) t) by (reg; exact E).
    assert (Q : derive_pt (fun t => - cos (w * t) / w) t D = sin (w * t)) by (reg; field; exact E).
    destruct D as [l Hl]. cbn in Q. subst l. exact Hl.
Qed.

Lemma icos_band x W : W <> 0 -> icos (- (2 * PI * x)) (W / 2) - icos (- (2 * PI * x)) (- (W / 2)) = W * sinc (W * x).
Proof.
  intros HW. assert (P := PI_RGT_0). unfold icos, sinc.
  destruct (Reqb (- (2 * PI * x)) 0) eqn:E; destruct (Reqb (W * x) 0) eqn:E'.
  - lra.
  - exfalso. apply Reqb_true in E. apply Reqb_false in E'. apply E'.
    assert (x = 0) by (destruct (Rmult_integral (2 * PI) x); lra). subst. ring.
  - exfalso. apply Reqb_false in E. apply Reqb_true in E'. apply E.
    destruct (Rmult_integral _ _ E'); [contradiction|]. subst. ring.
  - apply Reqb_false in E. apply Reqb_false in E'.
    assert (X : x <> 0) by (intros ->; apply E'; ring).
    replace (- (2 * PI * x) * (W / 2)) with (- (PI * (W * x))) by field.
    replace (- (2 * PI * x) * - (W / 2)) with (PI * (W * x)) by field.
    rewrite sin_neg. field. repeat split; lra || assumption.
Qed.

Lemma isin_band x W : isin x (W / 2) - isin x (- (W / 2)) = 0.
Proof.
  unfold isin. destruct (Reqb x 0) eqn:E; [lra|]. apply Reqb_false in E.
  replace (x * - (W / 2)) with (- (x * (W / 2))) by ring. rewrite cos_neg. field. exact E.
Qed.

(* a sum of n phasors with frequency-dependent phases *)
Definition wave (n : nat) (b : nat -> cplx) (y : nat -> R) (f : R) : cplx :=
  csumN n (fun j => cmul (b j) (turn (f * y j))).

(* products of two such sums, averaged over the band *)
Definition form (W : R) (n m : nat) (b : nat -> cplx) (y : nat -> R) (c : nat -> cplx) (z : nat -> R) : cplx :=
  csumN n (fun j => csumN m (fun l => cmul (cmul (b j) (cconj (c l))) (creal (sinc (W * (y j - z l)))))).

Lemma wave_power n b y f :
  cnorm2 (wave n b y f) =
  sumR n (fun j => sumR n (fun l =>
    re (cmul (b j) (cconj (b l))) * cos (- (2 * PI * (y j - y l)) * f)
    - im (cmul (b j) (cconj (b l))) * sin (- (2 * PI * (y j - y l)) * f))).
Proof.
  assert (E : cnorm2 (wave n b y f) = re (cmul (wave n b y f) (cconj (wave n b y f)))) by (rewrite cmul_conj; reflexivity).
  rewrite E. unfold wave at 1. rewrite <- csumN_mul_r, csumN_re. apply sumR_ext. intros j _.
  unfold wave. rewrite csumN_conj, <- csumN_mul_l, csumN_re. apply sumR_ext. intros l _.
  rewrite cconj_mul. unfold turn. rewrite cconj_cexpi.
  replace (cmul (cmul (b j) (cexpi (- (2 * PI * (f * y j))))) (cmul (cconj (b l)) (cexpi (- - (2 * PI * (f * y l))))))
    with (cmul (cmul (b j) (cconj (b l))) (cmul (cexpi (- (2 * PI * (f * y j)))) (cexpi (- - (2 * PI * (f * y l)))))) by ring.
  rewrite <- cexpi_add.
  replace (- (2 * PI * (f * y j)) + - - (2 * PI * (f * y l))) with (- (2 * PI * (y j - y l)) * f) by ring.
  reflexivity.
Qed.

Definition iwave (n : nat) (b : nat -> cplx) (y : nat -> R) (f : R) : R :=
  sumR n (fun j => sumR n (fun l =>
    re (cmul (b j) (cconj (b l))) * icos (- (2 * PI * (y j - y l))) f
    - im (cmul (b j) (cconj (b l))) * isin (- (2 * PI * (y j - y l))) f)).

Lemma iwave_derive n b y f : derivable_pt_lim (iwave n b y) f (cnorm2 (wave n b y f)).
Proof.
  rewrite wave_power. unfold iwave.
  apply (derivable_sumR n (fun j f => sumR n (fun l =>
    re (cmul (b j) (cconj (b l))) * icos (- (2 * PI * (y j - y l))) f
    - im (cmul (b j) (cconj (b l))) * isin (- (2 * PI * (y j - y l))) f))
   (fun j f => sumR n (fun l =>
    re (cmul (b j) (cconj (b l))) * cos (- (2 * PI * (y j - y l)) * f)
    - im (cmul (b j) (cconj (b l))) * sin (- (2 * PI * (y j - y l)) * f)))).
  intros j _.
  apply (derivable_sumR n (fun l f =>
    re (cmul (b j) (cconj (b l))) * icos (- (2 * PI * (y j - y l))) f
    - im (cmul (b j) (cconj (b l))) * isin (- (2 * PI * (y j - y l))) f)
   (fun l f =>
    re (cmul (b j) (cconj (b l))) * cos (- (2 * PI * (y j - y l)) * f)
    - im (cmul (b j) (cconj (b l))) * sin (- (2 * PI * (y j - y l)) * f))).
  intros l _.
  apply (derivable_pt_lim_minus (fun f => re (cmul (b j) (cconj (b l))) * icos (- (2 * PI * (y j - y l))) f)
                                (fun f => im (cmul (b j) (cconj (b l))) * isin (- (2 * PI * (y j - y l))) f)).
  - apply (derivable_pt_lim_scal (icos (- (2 * PI * (y j - y l))))). apply icos_derive.
  - apply (derivable_pt_lim_scal (isin (- (2 * PI * (y j - y l))))). apply isin_derive.
Qed.

Lemma wave_continuous n b y : continuity (fun f => cnorm2 (wave n b y f)).
Proof.
  intros f. apply (continuity_pt_locally_ext (fun f => sumR n (fun j => sumR n (fun l =>
    re (cmul (b j) (cconj (b l))) * cos (- (2 * PI * (y j - y l)) * f)
    - im (cmul (b j) (cconj (b l))) * sin (- (2 * PI * (y j - y l)) * f)))) _ 1 f Rlt_0_1).
  - intros x _. symmetry. apply wave_power.
  - apply (continuity_sumR n (fun j f => sumR n (fun l => _))). intros j.
    apply (continuity_sumR n (fun l f => _)). intros l x. apply derivable_continuous_pt. reg.
Qed.

Lemma iwave_band W n b y : W <> 0 -> iwave n b y (W / 2) - iwave n b y (- (W / 2)) = W * re (form W n n b y b y).
Proof.
  intros HW. unfold iwave, form. rewrite csumN_re, <- sumR_minus, <- sumR_scale. apply sumR_ext. intros j _.
  rewrite csumN_re, <- sumR_minus, <- sumR_scale. apply sumR_ext. intros l _.
  assert (A := icos_band (y j - y l) W HW). assert (B := isin_band (- (2 * PI * (y j - y l))) W).
  set (Bz := cmul (b j) (cconj (b l))) in *. cbn [cmul creal re im].
  replace (re Bz * sinc (W * (y j - y l)) - im Bz * 0) with (re Bz * sinc (W * (y j - y l))) by ring.
  replace (W * (re Bz * sinc (W * (y j - y l)))) with (re Bz * (W * sinc (W * (y j - y l)))) by ring.
  rewrite <- A.
  replace (isin (- (2 * PI * (y j - y l))) (W / 2)) with (isin (- (2 * PI * (y j - y l))) (- (W / 2))) by lra.
  ring.
Qed.

Lemma wave_mean W n b y : 0 < W -> band_mean_power W (wave n b y) (re (form W n n b y b y)).
Proof.
  intros HW. unfold band_mean_power.
  set (g := fun f => re (wave n b y f) ^ 2 + im (wave n b y f) ^ 2).
  assert (G : forall f, cnorm2 (wave n b y f) = g f) by (intros f; unfold cnorm2, g; ring).
  assert (C : continuity g).
  { intros f. apply (continuity_pt_locally_ext (fun f => cnorm2 (wave n b y f)) g 1 f Rlt_0_1).
    - intros x _. apply G.
    - apply wave_continuous. }
  assert (pr : Riemann_integrable g (- (W / 2)) (W / 2)).
  { apply continuity_implies_RiemannInt; [lra|]. intros t _. apply C. }
  exists pr.
  assert (H : forall t, derivable_pt_lim (iwave n b y) t (g t)) by (intros t; rewrite <- G; apply iwave_derive).
  set (d := fun t => exist (fun l => derivable_pt_lim (iwave n b y) t l) (g t) (H t) : derivable_pt (iwave n b y) t).
  assert (Q := @FTC_Riemann (mkC1 (c1 := iwave n b y) (diff0 := d) C) (- (W / 2)) (W / 2) pr).
  cbn in Q. rewrite iwave_band in Q by lra. etransitivity; [|apply (f_equal (fun x => x / W)); symmetry; exact Q].
  field. lra.
Qed.

Lemma form_nonneg W n b y : 0 < W -> 0 <= re (form W n n b y b y).
Proof.
  intros HW.
  assert (pr : derivable (iwave n b y)) by (intros t; exists (cnorm2 (wave n b y t)); apply iwave_derive).
  assert (I : increasing (iwave n b y)).
  { apply (nonneg_derivative_1 (iwave n b y) pr). intros t.
    rewrite (derive_pt_eq_0 _ _ _ (pr t) (iwave_derive n b y t)). apply cnorm2_nonneg. }
  assert (L : iwave n b y (- (W / 2)) <= iwave n b y (W / 2)) by (apply I; lra).
  assert (E := iwave_band W n b y ltac:(lra)). assert (0 <= W * re (form W n n b y b y)) by lra.
  apply (Rmult_le_reg_l W); lra.
Qed.

Lemma form_zero W n b y : 0 < W -> (forall f, wave n b y f = c0) -> re (form W n n b y b y) = 0.
Proof.
  intros HW Z.
  assert (D : forall t, derivable_pt_lim (iwave n b y) t 0).
  { intros t. assert (X := iwave_derive n b y t). rewrite Z in X. replace (cnorm2 c0) with 0 in X by (unfold cnorm2; cbn; ring). exact X. }
  assert (pr : derivable (iwave n b y)) by (intros t; exists 0; apply D).
  assert (K := null_derivative_1 (iwave n b y) pr).
  assert (C : constant (iwave n b y)) by (apply K; intros t; apply (derive_pt_eq_0 _ _ _ (pr t) (D t))).
  assert (E := iwave_band W n b y ltac:(lra)). rewrite (C (W / 2) (- (W / 2))) in E.
  apply (Rmult_eq_reg_l W); lra.
Qed.

Lemma sinc_even x : sinc (- x) = sinc x.
Proof.
  unfold sinc. destruct (Reqb (- x) 0) eqn:E; destruct (Reqb x 0) eqn:E'; try reflexivity.
  - apply Reqb_true in E. apply Reqb_false in E'. lra.
  - apply Reqb_false in E. apply Reqb_true in E'. lra.
  - apply Reqb_false in E'. assert (P := PI_RGT_0). replace (PI * - x) with (- (PI * x)) by ring. rewrite sin_neg. field. lra.
Qed.

Section Bessel.
  Context (W : R) (HW : 0 < W) (n m : nat) (a : nat -> cplx) (x : nat -> R) (l_min : Z).
  Let z (k : nat) : R := IZR (l_min + Z.of_nat k) / W.
  Let h (k : nat) : cplx := csumN n (fun p => cmul (a p) (creal (sinc (IZR (l_min + Z.of_nat k) - W * x p)))).
  Let b (j : nat) : cplx := if (j <? n)%nat then a j else copp (h (j - n)).
  Let y (j : nat) : R := if (j <? n)%nat then x j else z (j - n).

  Lemma b_low j : (j < n)%nat -> b j = a j.
  Proof. intros H. unfold b. destruct (Nat.ltb_spec j n); [reflexivity | lia]. Qed.
  Lemma y_low j : (j < n)%nat -> y j = x j.
  Proof. intros H. unfold y. destruct (Nat.ltb_spec j n); [reflexivity | lia]. Qed.
  Lemma b_high k : b (n + k) = copp (h k).
  Proof. unfold b. destruct (Nat.ltb_spec (n + k) n); [lia|]. do 2 f_equal. lia. Qed.
  Lemma y_high k : y (n + k) = z k.
  Proof. unfold y. destruct (Nat.ltb_spec (n + k) n); [lia|]. f_equal. lia. Qed.

  Lemma z_lag k l : W * (z k - z l) = IZR (Z.of_nat k - Z.of_nat l).
  Proof. unfold z. rewrite !plus_IZR, minus_IZR. field. lra. Qed.

  Lemma z_path k p : W * (x p - z k) = - (IZR (l_min + Z.of_nat k) - W * x p).
  Proof. unfold z. field. lra. Qed.

  Let power : R := sumR m (fun k => cnorm2 (h k)).

  Lemma form_split : re (form W (n + m) (n + m) b y b y) = re (form W n n a x a x) - power.
  Proof.
    unfold form at 1. rewrite csumN_split.
    assert (T1 : csumN n (fun j => csumN (n + m) (fun l => cmul (cmul (b j) (cconj (b l))) (creal (sinc (W * (y j - y l)))))) =
                 csub (form W n n a x a x) (creal power)).
    { rewrite (csumN_ext n _ (fun j => cadd (csumN n (fun l => cmul (cmul (a j) (cconj (a l))) (creal (sinc (W * (x j - x l))))))
          (csumN m (fun k => cmul (copp (cconj (h k))) (cmul (a j) (creal (sinc (IZR (l_min + Z.of_nat k) - W * x j)))))))).
      - rewrite csumN_add. fold (form W n n a x a x). rewrite csumN_swap.
        rewrite (csumN_ext m _ (fun k => creal (- cnorm2 (h k)))).
        + apply cplx_eq; cbn [cadd csub re im creal]; rewrite ?csumN_re, ?csumN_im; cbn [re im creal].
          * rewrite sumR_opp. unfold power. ring.
          * rewrite (sumR_zero m) by reflexivity. ring.
        + intros k _. rewrite csumN_mul_l. fold (h k).
          replace (cmul (copp (cconj (h k))) (h k)) with (copp (cmul (h k) (cconj (h k)))) by ring.
          rewrite cmul_conj. apply cplx_eq; cbn; ring.
      - intros j Hj. rewrite csumN_split, b_low, y_low by exact Hj. f_equal.
        + apply csumN_ext. intros l Hl. rewrite b_low, y_low by exact Hl. reflexivity.
        + apply csumN_ext. intros k _. rewrite b_high, y_high, z_path, sinc_even.
          replace (cconj (copp (h k))) with (copp (cconj (h k))) by (apply cplx_eq; cbn; ring). ring. }
    assert (T2 : csumN m (fun k => csumN (n + m) (fun l => cmul (cmul (b (n + k)) (cconj (b l))) (creal (sinc (W * (y (n + k) - y l)))))) = c0).
    { apply csumN_zero. intros k Hk. rewrite csumN_split, b_high, y_high.
      rewrite (csumN_ext n _ (fun p => cmul (copp (h k)) (cconj (cmul (a p) (creal (sinc (IZR (l_min + Z.of_nat k) - W * x p))))))).
      - rewrite csumN_mul_l, <- csumN_conj. fold (h k).
        rewrite (csumN_single m _ k Hk).
        + rewrite b_high, y_high, z_lag, Z.sub_diag, sinc_0.
          replace (cconj (copp (h k))) with (copp (cconj (h k))) by (apply cplx_eq; cbn; ring).
          change (creal 1) with c1. ring.
        + intros l _ N. rewrite y_high, z_lag, sinc_int by lia. apply cplx_eq; cbn; ring.
      - intros p Hp. rewrite b_low, y_low by exact Hp.
        replace (W * (z k - x p)) with (IZR (l_min + Z.of_nat k) - W * x p) by (unfold z; field; lra).
        apply cplx_eq; cbn; ring. }
    rewrite T1, T2. cbn. ring.
  Qed.

  Lemma bessel : power <= re (form W n n a x a x).
  Proof. assert (N := form_nonneg W (n + m) b y HW). rewrite form_split in N. lra. Qed.

  Lemma bessel_eq : (forall f, wave n a x f = wave m h z f) -> power = re (form W n n a x a x).
  Proof.
    intros E. assert (N : re (form W (n + m) (n + m) b y b y) = 0).
    { apply form_zero; [exact HW|]. intros f. unfold wave. rewrite csumN_split.
      rewrite (csumN_ext n _ (fun j => cmul (a j) (turn (f * x j)))) by (intros j Hj; rewrite b_low, y_low by exact Hj; reflexivity).
      fold (wave n a x f). rewrite E. unfold wave. rewrite <- csumN_add. apply csumN_zero. intros k _.
      rewrite b_high, y_high. ring. }
    rewrite form_split in N. lra.
  Qed.
End Bessel.

(* the response at a single frequency *)
Lemma response_wave D a tau b r ra t ta s f :
  cir_to_ofdm D [f] a tau false b r ra t ta s 0%nat = wave (d_path D) (fun p => a b r ra t ta p s) (fun p => path_delay tau b r ra t ta p) f.
Proof. rewrite C50_formula by (cbn; lia). reflexivity. Qed.

Lemma band_mean_ext W H H' m : 0 < W -> (forall f, H f = H' f) -> band_mean_power W H m -> band_mean_power W H' m.
Proof.
  intros HW E [pr ->].
  assert (Q : forall f, re (H f) ^ 2 + im (H f) ^ 2 = re (H' f) ^ 2 + im (H' f) ^ 2) by (intros f; rewrite E; reflexivity).
  assert (pr' : Riemann_integrable (fun f => re (H' f) ^ 2 + im (H' f) ^ 2) (- (W / 2)) (W / 2)).
  { refine (@Riemann_integrable_ext _ _ _ _ _ pr). intros f _. apply Q. }
  exists pr'. f_equal. apply RiemannInt_P18; [lra|]. intros f _. apply Q.
Qed.

Lemma tap_energy D W a tau l_min l_max b r ra t ta s :
  sumR (lags l_min l_max) (fun k => cnorm2 (cir_to_time D W a tau l_min l_max false b r ra t ta s k)) =
  sumR (lags l_min l_max) (fun k => cnorm2 (csumN (d_path D) (fun p => cmul (a b r ra t ta p s)
    (creal (sinc (IZR (l_min + Z.of_nat k) - W * path_delay tau b r ra t ta p)))))).
Proof. apply sumR_ext. intros k Hk. rewrite C51_formula by exact Hk. reflexivity. Qed.

Lemma C88_l D W a tau l_min l_max b r ra t ta s : 0 < W ->
  exists m, band_mean_power W (fun f => cir_to_ofdm D [f] a tau false b r ra t ta s 0%nat) m /\
  sumR (lags l_min l_max) (fun k => cnorm2 (cir_to_time D W a tau l_min l_max false b r ra t ta s k)) <= m.
Proof.
  intros HW. exists (re (form W (d_path D) (d_path D) (fun p => a b r ra t ta p s) (fun p => path_delay tau b r ra t ta p)
    (fun p => a b r ra t ta p s) (fun p => path_delay tau b r ra t ta p))). split.
  - apply (band_mean_ext W (wave (d_path D) (fun p => a b r ra t ta p s) (fun p => path_delay tau b r ra t ta p))); [exact HW| |].
    + intros f. symmetry. apply response_wave.
    + apply wave_mean. exact HW.
  - rewrite tap_energy. apply bessel. exact HW.
Qed.

Lemma C88_whole_l D W a tau l_min l_max b r ra t ta s (lag : nat -> Z) : 0 < W ->
  (forall p, (p < d_path D)%nat -> (l_min <= lag p <= l_max)%Z /\ W * path_delay tau b r ra t ta p = IZR (lag p)) ->
  band_mean_power W (fun f => cir_to_ofdm D [f] a tau false b r ra t ta s 0%nat)
    (sumR (lags l_min l_max) (fun k => cnorm2 (cir_to_time D W a tau l_min l_max false b r ra t ta s k))).
Proof.
  intros HW HL. rewrite tap_energy.
  set (A := fun p => a b r ra t ta p s). set (X := fun p => path_delay tau b r ra t ta p).
  match goal with |- band_mean_power _ _ ?v => assert (Q : v = re (form W (d_path D) (d_path D) A X A X)) end.
  - apply (bessel_eq W HW (d_path D) (lags l_min l_max) A X l_min).
    intros f. unfold wave.
    rewrite (csumN_ext (lags l_min l_max) _ (fun k => csumN (d_path D) (fun p =>
       if Z.eqb (lag p) (l_min + Z.of_nat k) then cmul (A p) (turn (f * X p)) else c0))).
    + rewrite csumN_swap. apply csumN_ext. intros p Hp. destruct (HL p Hp) as [R1 R2].
      rewrite (csumN_single (lags l_min l_max) _ (Z.to_nat (lag p - l_min))).
      * rewrite Z2Nat.id by lia. destruct (Z.eqb_spec (lag p) (l_min + (lag p - l_min))); [reflexivity | lia].
      * unfold lags. lia.
      * intros j _ N. destruct (Z.eqb_spec (lag p) (l_min + Z.of_nat j)); [lia | reflexivity].
    + intros k _. rewrite <- csumN_mul_r. apply csumN_ext. intros p Hp. destruct (HL p Hp) as [_ R2].
      fold (X p) in R2. rewrite R2, <- minus_IZR. destruct (Z.eqb_spec (lag p) (l_min + Z.of_nat k)) as [Q | Q].
      * replace (l_min + Z.of_nat k - lag p)%Z with 0%Z by lia. rewrite sinc_0. change (creal 1) with c1.
        rewrite <- Q, <- R2. replace (W * X p / W) with (X p) by (field; lra). ring.
      * rewrite sinc_int by lia. apply cplx_eq; cbn; ring.
  - rewrite Q. apply (band_mean_ext W (wave (d_path D) A X)); [exact HW| |].
    + intros f. symmetry. apply response_wave.
    + apply wave_mean. exact HW.
Qed.

Lemma C88_path_l D W a tau l_min l_max b r ra t ta s : 0 < W -> d_path D = 1%nat ->
  sumR (lags l_min l_max) (fun k => cnorm2 (cir_to_time D W a tau l_min l_max false b r ra t ta s k))
  <= cnorm2 (a b r ra t ta 0%nat s).
Proof.
  intros HW H1. rewrite tap_energy, H1.
  eapply Rle_trans; [apply bessel; exact HW|]. unfold form.
  rewrite !csumN_S, !csumN_0. rewrite Rminus_diag_eq, Rmult_0_r, sinc_0, cmul_conj by reflexivity. cbn. lra.
Qed.
