(* Second moments of the tapped delay line coefficients over the random phases: C54, C72. *)
From Coq Require Import Reals String List Bool Arith Lia Lra ZArith.
From Verif Require Import M_Base L_Base L_Trig M_Json D_Links M_Params M_Geometry M_Cplx L_Coeff M_Convert M_Links S_Convert S_Links L_Csum L_Grids L_Convert L_Tdl.
Import ListNotations.
Open Scope string_scope.
Open Scope list_scope.
Open Scope R_scope.

Section Mean.
  Variables (nr nt np n : nat) (E : (phases -> R -> cplx) -> cplx).
  Hypothesis PM : phase_mean nr nt np n E.

  Lemma E_zero : E (fun _ _ => c0) = c0.
  Proof.
    rewrite (pm_ext _ _ _ _ _ PM _ (fun _ _ => cmul c0 c0)) by (intros; ring).
    rewrite (pm_scale _ _ _ _ _ PM c0 (fun _ _ => c0)). ring.
  Qed.
  Lemma E_sum m f : E (fun x z => csumN m (fun k => f k x z)) = csumN m (fun k => E (f k)).
  Proof.
    induction m as [|m IH]; [exact E_zero|]. rewrite csumN_S, <- IH, <- (pm_add _ _ _ _ _ PM).
    apply (pm_ext _ _ _ _ _ PM). intros; apply csumN_S.
  Qed.
  Lemma E_scale_r c f : E (fun x z => cmul (f x z) c) = cmul (E f) c.
  Proof.
    rewrite (pm_ext _ _ _ _ _ PM _ (fun x z => cmul c (f x z))) by (intros; ring).
    rewrite (pm_scale _ _ _ _ _ PM). ring.
  Qed.

  (* two weighted sums of unit phasors *)
  Lemma E_pair (u v : nat -> cplx) r s p r' s' p' :
    (r < nr)%nat -> (s < nt)%nat -> (p < np)%nat -> (r' < nr)%nat -> (s' < nt)%nat -> (p' < np)%nat ->
    E (fun x _ => cmul (csumN n (fun k => cmul (u k) (cexpi (x r s p k))))
                       (cconj (csumN n (fun k => cmul (v k) (cexpi (x r' s' p' k)))))) =
    if Nat.eqb r r' && Nat.eqb s s' && Nat.eqb p p' then csumN n (fun k => cmul (u k) (cconj (v k))) else c0.
  Proof.
    intros H1 H2 H3 H4 H5 H6.
    rewrite (pm_ext _ _ _ _ _ PM _ (fun x z => csumN n (fun k => csumN n (fun k' =>
      cmul (cmul (u k) (cconj (v k'))) (cexpi (x r s p k - x r' s' p' k')))))).
    2: { intros x z. rewrite csumN_conj, <- csumN_mul_r. apply csumN_ext. intros k Hk.
         rewrite <- csumN_mul_l. apply csumN_ext. intros k' Hk'.
         rewrite cconj_mul, cconj_cexpi. replace (x r s p k - x r' s' p' k') with (x r s p k + - x r' s' p' k') by ring.
         rewrite cexpi_add. ring. }
    rewrite (E_sum n (fun k x z => csumN n (fun k' => cmul (cmul (u k) (cconj (v k'))) (cexpi (x r s p k - x r' s' p' k'))))).
    rewrite (csumN_ext n _ (fun k => csumN n (fun k' => cmul (cmul (u k) (cconj (v k'))) (if same4 r s p k r' s' p' k' then c1 else c0)))).
    2: { intros k Hk. rewrite (E_sum n (fun k' x z => cmul (cmul (u k) (cconj (v k'))) (cexpi (x r s p k - x r' s' p' k')))).
         apply csumN_ext. intros k' Hk'. rewrite (pm_scale _ _ _ _ _ PM _ (fun x z => cexpi (x r s p k - x r' s' p' k'))).
         rewrite (pm_pair _ _ _ _ _ PM) by assumption. reflexivity. }
    unfold same4. destruct (Nat.eqb r r' && Nat.eqb s s' && Nat.eqb p p') eqn:Q; cbn [andb].
    - apply csumN_ext. intros k Hk. rewrite (csumN_single n _ k Hk).
      + rewrite Nat.eqb_refl. ring.
      + intros j Hj Hne. destruct (Nat.eqb_spec k j) as [->|_]; [congruence|]. ring.
    - apply csumN_zero. intros k _. apply csumN_zero. intros. ring.
  Qed.

  (* the specular phasor is uncorrelated with a weighted sum of the others *)
  Lemma E_los (u : nat -> cplx) c r s p : (r < nr)%nat -> (s < nt)%nat -> (p < np)%nat ->
    E (fun x z => cmul (cmul c (cexpi z)) (cconj (csumN n (fun k => cmul (u k) (cexpi (x r s p k)))))) = c0 /\
    E (fun x z => cmul (csumN n (fun k => cmul (u k) (cexpi (x r s p k)))) (cconj (cmul c (cexpi z)))) = c0.
  Proof.
    intros H1 H2 H3. split.
    - rewrite (pm_ext _ _ _ _ _ PM _ (fun x z => csumN n (fun k => cmul (cmul c (cconj (u k))) (cexpi (z - x r s p k))))).
      + rewrite (E_sum n (fun k x z => cmul (cmul c (cconj (u k))) (cexpi (z - x r s p k)))). apply csumN_zero. intros k Hk.
        rewrite (pm_scale _ _ _ _ _ PM _ (fun x z => cexpi (z - x r s p k))), (pm_los _ _ _ _ _ PM) by assumption. ring.
      + intros x z. rewrite csumN_conj, <- csumN_mul_l. apply csumN_ext. intros k Hk. rewrite cconj_mul, cconj_cexpi.
        replace (z - x r s p k) with (z + - x r s p k) by ring. rewrite cexpi_add. ring.
    - rewrite (pm_ext _ _ _ _ _ PM _ (fun x z => csumN n (fun k => cmul (cmul (u k) (cconj c)) (cexpi (x r s p k - z))))).
      + rewrite (E_sum n (fun k x z => cmul (cmul (u k) (cconj c)) (cexpi (x r s p k - z)))). apply csumN_zero. intros k Hk.
        rewrite (pm_scale _ _ _ _ _ PM _ (fun x z => cexpi (x r s p k - z))), (pm_los' _ _ _ _ _ PM) by assumption. ring.
      + intros x z. rewrite <- csumN_mul_r. apply csumN_ext. intros k Hk. rewrite cconj_mul, cconj_cexpi.
        replace (x r s p k - z) with (x r s p k + - z) by ring. rewrite cexpi_add. ring.
  Qed.
  Lemma E_los_los c d : E (fun x z => cmul (cmul c (cexpi z)) (cconj (cmul d (cexpi z)))) = cmul c (cconj d).
  Proof.
    rewrite (pm_ext _ _ _ _ _ PM _ (fun x z => cmul (cmul c (cconj d)) c1)).
    - rewrite (pm_scale _ _ _ _ _ PM _ (fun _ _ => c1)), (pm_one _ _ _ _ _ PM). ring.
    - intros x z. rewrite cconj_mul, cconj_cexpi. transitivity (cmul (cmul c (cconj d)) (cmul (cexpi z) (cexpi (- z)))); [ring|].
      rewrite <- cexpi_add. replace (z + - z) with 0 by ring. f_equal. unfold cexpi. rewrite cos_0, sin_0. reflexivity.
  Qed.

  (* a linear mixture of pairwise uncorrelated coefficients *)
  Lemma E_mix m m' (w w' : nat -> cplx) (h h' : nat -> phases -> R -> cplx) :
    E (fun x z => cmul (csumN m (fun q => cmul (w q) (h q x z))) (cconj (csumN m' (fun q => cmul (w' q) (h' q x z))))) =
    csumN m (fun q => csumN m' (fun q' => cmul (cmul (w q) (cconj (w' q'))) (correlation E (h q) (h' q')))).
  Proof.
    rewrite (pm_ext _ _ _ _ _ PM _ (fun x z => csumN m (fun q => csumN m' (fun q' =>
      cmul (cmul (w q) (cconj (w' q'))) (cmul (h q x z) (cconj (h' q' x z))))))).
    - rewrite (E_sum m (fun q x z => csumN m' (fun q' => cmul (cmul (w q) (cconj (w' q'))) (cmul (h q x z) (cconj (h' q' x z)))))).
      apply csumN_ext. intros q _.
      rewrite (E_sum m' (fun q' x z => cmul (cmul (w q) (cconj (w' q'))) (cmul (h q x z) (cconj (h' q' x z))))).
      apply csumN_ext. intros q' _. apply (pm_scale _ _ _ _ _ PM _ (fun x z => cmul (h q x z) (cconj (h' q' x z)))).
    - intros x z. rewrite csumN_conj, <- csumN_mul_r. apply csumN_ext. intros q _.
      rewrite <- csumN_mul_l. apply csumN_ext. intros q' _. rewrite cconj_mul. ring.
  Qed.
End Mean.

Definition weight (t : tdl) (fs w : R) (th : nat -> nat -> R) (p i k : nat) : cplx :=
  cmul (creal (sqrt (nth p (td_powers t) 0) * (1 / sqrt (INR (td_sinusoids t)))))
       (cexpi (w * (INR i / fs) * cos (2 * PI / INR (td_sinusoids t) * INR (k + 1) + th p k))).
Lemma creal_mul x y : creal (x * y) = cmul (creal x) (creal y).
Proof. apply cplx_eq; cbn; ring. Qed.
Lemma cconj_add a b : cconj (cadd a b) = cadd (cconj a) (cconj b).
Proof. apply cplx_eq; cbn; ring. Qed.
Lemma cconj_creal x : cconj (creal x) = creal x.
Proof. apply cplx_eq; cbn; ring. Qed.

Lemma diffuse_sum t fs w th x z r s p i :
  tdl_diffuse t fs (TdlDraws w th x z) r s p i =
  csumN (td_sinusoids t) (fun k => cmul (weight t fs w th p i k) (cexpi (x r s p k))).
Proof.
  unfold tdl_diffuse, weight. cbn [dw_doppler dw_theta dw_phi]. cbv zeta. rewrite <- !csumN_mul_l.
  apply csumN_ext. intros k _. rewrite cexpi_add, creal_mul. ring.
Qed.

Lemma weight_corr t fs w th p i j : (0 < td_sinusoids t)%nat -> 0 <= nth p (td_powers t) 0 ->
  csumN (td_sinusoids t) (fun k => cmul (weight t fs w th p i k) (cconj (weight t fs w th p j k))) =
  cmul (creal (nth p (td_powers t) 0)) (scatter_autocorrelation (td_sinusoids t) w (th p) (INR i / fs - INR j / fs)).
Proof.
  intros N P. unfold scatter_autocorrelation, weight. rewrite <- !csumN_mul_l. apply csumN_ext. intros k _.
  rewrite cconj_mul, cconj_creal, cconj_cexpi.
  set (al := cos _). set (A := sqrt (nth p (td_powers t) 0)). set (B := 1 / sqrt (INR (td_sinusoids t))).
  assert (EA : nth p (td_powers t) 0 = A * A) by (unfold A; rewrite sqrt_sqrt; [reflexivity|exact P]).
  assert (NP : 0 < INR (td_sinusoids t)) by (apply lt_0_INR; exact N).
  assert (EB : 1 / INR (td_sinusoids t) = B * B).
  { unfold B. pose proof (sqrt_lt_R0 _ NP). rewrite <- (sqrt_sqrt (INR (td_sinusoids t))) at 1 by lra. field. lra. }
  rewrite EA, EB. replace (w * (INR i / fs - INR j / fs) * al) with (w * (INR i / fs) * al + - (w * (INR j / fs) * al)) by ring.
  rewrite cexpi_add, !creal_mul. ring.
Qed.

Section Cov.
  Variables (t : tdl) (nr nt np : nat) (E : (phases -> R -> cplx) -> cplx).
  Hypothesis PM : phase_mean nr nt np (td_sinusoids t) E.
  Hypothesis N : (0 < td_sinusoids t)%nat.
  Hypothesis P : forall p, 0 <= nth p (td_powers t) 0.
  Variables (fs w : R) (th : nat -> nat -> R).

  Lemma cov_diffuse r s p i r' s' p' j :
    (r < nr)%nat -> (s < nt)%nat -> (p < np)%nat -> (r' < nr)%nat -> (s' < nt)%nat -> (p' < np)%nat ->
    correlation E (fun x z => tdl_diffuse t fs (TdlDraws w th x z) r s p i) (fun x z => tdl_diffuse t fs (TdlDraws w th x z) r' s' p' j) =
    if Nat.eqb r r' && Nat.eqb s s' && Nat.eqb p p'
    then cmul (creal (nth p (td_powers t) 0)) (scatter_autocorrelation (td_sinusoids t) w (th p) (INR i / fs - INR j / fs))
    else c0.
  Proof.
    intros H1 H2 H3 H4 H5 H6. unfold correlation.
    rewrite (pm_ext _ _ _ _ _ PM _ (fun x z =>
       cmul (csumN (td_sinusoids t) (fun k => cmul (weight t fs w th p i k) (cexpi (x r s p k))))
            (cconj (csumN (td_sinusoids t) (fun k => cmul (weight t fs w th p' j k) (cexpi (x r' s' p' k)))))))
      by (intros; rewrite !diffuse_sum; reflexivity).
    rewrite (E_pair nr nt np _ E PM) by assumption.
    destruct (Nat.eqb r r' && Nat.eqb s s' && Nat.eqb p p') eqn:Q; [|reflexivity].
    apply andb_prop in Q. destruct Q as [_ Q]. apply Nat.eqb_eq in Q. subst p'. apply weight_corr; [exact N|apply P].
  Qed.

  Definition spec_weight (i : nat) : cplx := cmul (creal (sqrt (td_los_power t))) (cexpi (w * (INR i / fs) * cos (td_aoa t))).
  Lemma specular_phasor x z i : tdl_specular t fs (TdlDraws w th x z) i = cmul (spec_weight i) (cexpi z).
  Proof. unfold tdl_specular, spec_weight. cbn [dw_doppler dw_phi0]. rewrite cexpi_add. ring. Qed.

  Lemma cov_taps r s p i r' s' p' j : 0 <= td_los_power t ->
    (r < nr)%nat -> (s < nt)%nat -> (p < np)%nat -> (r' < nr)%nat -> (s' < nt)%nat -> (p' < np)%nat ->
    correlation E (fun x z => tdl_taps t fs (TdlDraws w th x z) r s p i) (fun x z => tdl_taps t fs (TdlDraws w th x z) r' s' p' j) =
    cadd (if Nat.eqb r r' && Nat.eqb s s' && Nat.eqb p p'
          then cmul (creal (nth p (td_powers t) 0)) (scatter_autocorrelation (td_sinusoids t) w (th p) (INR i / fs - INR j / fs))
          else c0)
         (if td_los t && (Nat.eqb p 0 && Nat.eqb p' 0)
          then cmul (creal (td_los_power t)) (cexpi (w * (INR i / fs - INR j / fs) * cos (td_aoa t))) else c0).
  Proof.
    intros PL H1 H2 H3 H4 H5 H6.
    pose proof (cov_diffuse r s p i r' s' p' j H1 H2 H3 H4 H5 H6) as CD. unfold correlation in *.
    set (D1 := fun x z => tdl_diffuse t fs (TdlDraws w th x z) r s p i) in *.
    set (D2 := fun x z => tdl_diffuse t fs (TdlDraws w th x z) r' s' p' j) in *.
    assert (CD' : E (fun x z => cmul (D1 x z) (cconj (D2 x z))) = _) by exact CD.
    assert (X1 : E (fun x z => cmul (tdl_specular t fs (TdlDraws w th x z) i) (cconj (D2 x z))) = c0).
    { rewrite (pm_ext _ _ _ _ _ PM _ (fun x z => cmul (cmul (spec_weight i) (cexpi z))
         (cconj (csumN (td_sinusoids t) (fun k => cmul (weight t fs w th p' j k) (cexpi (x r' s' p' k)))))))
        by (intros; unfold D2; rewrite diffuse_sum, specular_phasor; reflexivity).
      apply (E_los nr nt np _ E PM); assumption. }
    assert (X2 : E (fun x z => cmul (D1 x z) (cconj (tdl_specular t fs (TdlDraws w th x z) j))) = c0).
    { rewrite (pm_ext _ _ _ _ _ PM _ (fun x z => cmul (csumN (td_sinusoids t) (fun k => cmul (weight t fs w th p i k) (cexpi (x r s p k))))
         (cconj (cmul (spec_weight j) (cexpi z)))))
        by (intros; unfold D1; rewrite diffuse_sum, specular_phasor; reflexivity).
      apply (E_los nr nt np _ E PM); assumption. }
    assert (X3 : E (fun x z => cmul (tdl_specular t fs (TdlDraws w th x z) i) (cconj (tdl_specular t fs (TdlDraws w th x z) j))) =
                 cmul (creal (td_los_power t)) (cexpi (w * (INR i / fs - INR j / fs) * cos (td_aoa t)))).
    { rewrite (pm_ext _ _ _ _ _ PM _ (fun x z => cmul (cmul (spec_weight i) (cexpi z)) (cconj (cmul (spec_weight j) (cexpi z)))))
        by (intros; rewrite !specular_phasor; reflexivity).
      rewrite (E_los_los nr nt np _ E PM). unfold spec_weight. rewrite cconj_mul, cconj_creal, cconj_cexpi.
      rewrite <- (sqrt_sqrt (td_los_power t)) at 3 by exact PL. rewrite creal_mul.
      replace (w * (INR i / fs - INR j / fs) * cos (td_aoa t))
        with (w * (INR i / fs) * cos (td_aoa t) + - (w * (INR j / fs) * cos (td_aoa t))) by ring.
      rewrite cexpi_add. ring. }
    unfold tdl_taps. destruct (td_los t); cbn [andb]; [|rewrite CD; ring].
    destruct (Nat.eqb_spec p 0) as [Hp|Hp]; destruct (Nat.eqb_spec p' 0) as [Hp'|Hp']; cbn [andb].
    - rewrite (pm_ext _ _ _ _ _ PM _ (fun x z => cadd (cadd
          (cmul (tdl_specular t fs (TdlDraws w th x z) i) (cconj (tdl_specular t fs (TdlDraws w th x z) j)))
          (cmul (tdl_specular t fs (TdlDraws w th x z) i) (cconj (D2 x z))))
          (cadd (cmul (D1 x z) (cconj (tdl_specular t fs (TdlDraws w th x z) j))) (cmul (D1 x z) (cconj (D2 x z))))))
        by (intros; unfold D1, D2; rewrite cconj_add; ring).
      rewrite !(pm_add _ _ _ _ _ PM (fun x z => cadd _ _)).
      rewrite (pm_add _ _ _ _ _ PM (fun x z => cmul (tdl_specular t fs (TdlDraws w th x z) i) (cconj (tdl_specular t fs (TdlDraws w th x z) j)))).
      rewrite (pm_add _ _ _ _ _ PM (fun x z => cmul (D1 x z) (cconj (tdl_specular t fs (TdlDraws w th x z) j)))).
      rewrite X1, X2, X3, CD'. ring.
    - rewrite (pm_ext _ _ _ _ _ PM _ (fun x z => cadd
          (cmul (tdl_specular t fs (TdlDraws w th x z) i) (cconj (D2 x z))) (cmul (D1 x z) (cconj (D2 x z)))))
        by (intros; unfold D1, D2; ring).
      rewrite (pm_add _ _ _ _ _ PM (fun x z => cmul (tdl_specular t fs (TdlDraws w th x z) i) (cconj (D2 x z)))).
      rewrite X1, CD'. ring.
    - rewrite (pm_ext _ _ _ _ _ PM _ (fun x z => cadd
          (cmul (D1 x z) (cconj (tdl_specular t fs (TdlDraws w th x z) j))) (cmul (D1 x z) (cconj (D2 x z)))))
        by (intros; unfold D1, D2; rewrite cconj_add; ring).
      rewrite (pm_add _ _ _ _ _ PM (fun x z => cmul (D1 x z) (cconj (tdl_specular t fs (TdlDraws w th x z) j)))).
      rewrite X2, CD'. ring.
    - rewrite CD. ring.
  Qed.
End Cov.

(* ---- the constructed model ---- *)
Lemma diffuse_len p : (pf_los p = true -> (2 <= length (pf_rows p))%nat) -> length (diffuse_powers p) = length (tap_powers p).
Proof.
  intros H. unfold diffuse_powers, tap_powers.
  assert (LL : length (linear_powers p) = length (pf_rows p)) by (unfold linear_powers; apply map_length).
  destruct (pf_los p); [|reflexivity]. specialize (H eq_refl).
  destruct (linear_powers p) as [|x [|y l]]; cbn in *; try lia; reflexivity.
Qed.
Lemma call_ok chol a p t fs d : shape chol a p t -> tdl_call t fs d = Ok (tdl_correlate t (tdl_taps t fs d), tdl_delays t).
Proof.
  intros S. unfold tdl_call.
  rewrite (sh_num _ _ _ _ S), (sh_powers _ _ _ _ S), map_length, (diffuse_len p) by apply (sh_rows2 _ _ _ _ S).
  rewrite Z.eqb_refl. reflexivity.
Qed.
Lemma nth_pos_default (l : list R) k : (forall x, In x l -> 0 < x) -> 0 <= nth k l 0.
Proof. intros H. destruct (nth_in_or_default k l 0) as [I|E]; [left; auto|rewrite E; lra]. Qed.
Lemma powers_nonneg chol a p t k : shape chol a p t -> 0 <= nth k (td_powers t) 0.
Proof.
  intros S. apply nth_pos_default. intros x. rewrite (sh_powers _ _ _ _ S). intros H. apply in_map_iff in H.
  destruct H as (y & <- & Hy). apply Rdiv_lt_0_compat; [|apply total_pos, (sh_rows _ _ _ _ S)].
  apply (linear_pos p). revert Hy. unfold diffuse_powers. destruct (pf_los p); [|exact (fun h => h)].
  destruct (linear_powers p); [intros []|intros Hy; right; exact Hy].
Qed.
Lemma los_nonneg chol a p t : shape chol a p t -> 0 <= td_los_power t.
Proof.
  intros S. rewrite (sh_los_power _ _ _ _ S). unfold specular_power. destruct (pf_los p); [|lra].
  pose proof (linear_pos p) as P. pose proof (total_pos p (sh_rows _ _ _ _ S)) as T.
  destruct (linear_powers p) as [|x l]; cbn [hd].
  - unfold Rdiv. lra.
  - left. apply Rdiv_lt_0_compat; [apply P; left; reflexivity|exact T].
Qed.
Lemma taps_split chol a p t k : shape chol a p t ->
  nth k (td_powers t) 0 + (if pf_los p && Nat.eqb k 0 then td_los_power t else 0) = nth k (tap_powers p) 0 / total_power p.
Proof.
  intros S. rewrite (sh_los_power _ _ _ _ S), (sh_powers _ _ _ _ S). unfold diffuse_powers, specular_power, tap_powers.
  pose proof (total_pos p (sh_rows _ _ _ _ S)) as T.
  assert (LL : length (linear_powers p) = length (pf_rows p)) by (unfold linear_powers; apply map_length).
  assert (G : forall l k, nth k (map (fun x => x / total_power p) l) 0 = nth k l 0 / total_power p).
  { intros l k0. replace 0 with (0 / total_power p) at 1 by (unfold Rdiv; ring). apply (map_nth (fun x => x / total_power p)). }
  rewrite G. destruct (pf_los p) eqn:EL; cbn [andb]; [|ring].
  pose proof (sh_rows2 _ _ _ _ S EL). destruct (linear_powers p) as [|x [|y l]] eqn:El; cbn in LL; try lia.
  destruct k as [|k]; cbn [nth tl hd Nat.eqb]; [unfold Rdiv; ring|]. destruct k; cbn; ring.
Qed.

Lemma auto_zero n w th : (0 < n)%nat -> scatter_autocorrelation n w th 0 = c1.
Proof.
  intros N. unfold scatter_autocorrelation. rewrite (csumN_ext n _ (fun _ => c1)).
  2: { intros. replace (w * 0 * cos (2 * PI / INR n * INR (k + 1) + th k)) with 0 by ring. unfold cexpi. rewrite cos_0, sin_0. reflexivity. }
  assert (S : forall m, csumN m (fun _ => c1) = creal (INR m)).
  { induction m as [|m IH]; [reflexivity|]. rewrite csumN_S, IH, S_INR. apply cplx_eq; cbn; ring. }
  rewrite S, <- creal_mul. unfold creal, c1. f_equal. field. apply not_0_INR. lia.
Qed.

(* C54: mean powers and correlations of the coefficients of an uncorrelated model *)
Lemma C54_moments_l chol a t p E fs w th :
  tdl_init chol a = Ok t -> documented_profile (ta_model a) = Some p ->
  ta_spatial a = None -> ta_rx_corr a = None -> ta_tx_corr a = None -> (0 < ta_sinusoids a)%nat ->
  phase_mean (ta_rx a) (ta_tx a) (length (tap_powers p)) (ta_sinusoids a) E ->
  exists H : phases -> R -> nat -> nat -> nat -> nat -> cplx,
    (forall x z, tdl_call t fs (TdlDraws w th x z) = Ok (H x z, tdl_delays t)) /\
    (forall r s k i, (r < ta_rx a)%nat -> (s < ta_tx a)%nat -> (k < length (tap_powers p))%nat ->
       correlation E (fun x z => H x z r s k i) (fun x z => H x z r s k i) = creal (nth k (tap_powers p) 0 / total_power p)) /\
    (forall r s k i j, (r < ta_rx a)%nat -> (s < ta_tx a)%nat -> (k < length (tap_powers p))%nat -> pf_los p = false \/ (0 < k)%nat ->
       correlation E (fun x z => H x z r s k i) (fun x z => H x z r s k j) =
       cmul (creal (nth k (tap_powers p) 0 / total_power p)) (scatter_autocorrelation (ta_sinusoids a) w (th k) (INR i / fs - INR j / fs))) /\
    (forall r s i j, (r < ta_rx a)%nat -> (s < ta_tx a)%nat -> pf_los p = true ->
       exists sp df rest, linear_powers p = sp :: df :: rest /\
       correlation E (fun x z => H x z r s 0%nat i) (fun x z => H x z r s 0%nat j) =
       cadd (cmul (creal (df / total_power p)) (scatter_autocorrelation (ta_sinusoids a) w (th 0%nat) (INR i / fs - INR j / fs)))
            (cmul (creal (sp / total_power p)) (cexpi (w * (INR i / fs - INR j / fs) * cos (ta_aoa a))))) /\
    (forall r s k i r' s' k' j, (r < ta_rx a)%nat -> (s < ta_tx a)%nat -> (k < length (tap_powers p))%nat ->
       (r' < ta_rx a)%nat -> (s' < ta_tx a)%nat -> (k' < length (tap_powers p))%nat ->
       (r, s, k) <> (r', s', k') -> pf_los p = false \/ (0 < k)%nat \/ (0 < k')%nat ->
       correlation E (fun x z => H x z r s k i) (fun x z => H x z r' s' k' j) = c0).
Proof.
  intros I D C1 C2 C3 N PM. pose proof (init_shape _ _ _ _ I D) as S.
  destruct (sh_corr2 _ _ _ _ S C1) as (lr & lt & EC & Er & Et). rewrite C2 in Er. rewrite C3 in Et. subst lr lt.
  exists (fun x z => tdl_taps t fs (TdlDraws w th x z)).
  assert (PM' : phase_mean (ta_rx a) (ta_tx a) (length (tap_powers p)) (td_sinusoids t) E) by (rewrite (sh_sin _ _ _ _ S); exact PM).
  assert (N' : (0 < td_sinusoids t)%nat) by (rewrite (sh_sin _ _ _ _ S); exact N).
  assert (P' : forall k, 0 <= nth k (td_powers t) 0) by (intros; apply (powers_nonneg chol a p t k S)).
  pose proof (los_nonneg chol a p t S) as PL.
  assert (COV := fun r s q i r' s' q' j => cov_taps t _ _ _ E PM' N' P' fs w th r s q i r' s' q' j PL).
  rewrite (sh_los _ _ _ _ S), (sh_sin _ _ _ _ S) in COV.
  assert (L0 : pf_los p = true -> (0 < length (tap_powers p))%nat).
  { intros EL. rewrite <- (diffuse_len p (sh_rows2 _ _ _ _ S)). unfold diffuse_powers. rewrite EL.
    assert (LL : length (linear_powers p) = length (pf_rows p)) by (unfold linear_powers; apply map_length).
    pose proof (sh_rows2 _ _ _ _ S EL). destruct (linear_powers p) as [|y [|y' l]]; cbn in *; lia. }
  split; [|split; [|split; [|split]]].
  - intros x z. rewrite (call_ok chol a p t fs _ S). unfold tdl_correlate. rewrite EC. reflexivity.
  - intros r s k i H1 H2 H3. rewrite COV by assumption. rewrite !Nat.eqb_refl. cbn [andb].
    replace (INR i / fs - INR i / fs) with 0 by ring. rewrite auto_zero by exact N.
    rewrite <- (taps_split chol a p t k S). replace (w * 0 * cos (td_aoa t)) with 0 by ring.
    assert (cexpi 0 = c1) as -> by (unfold cexpi; rewrite cos_0, sin_0; reflexivity).
    destruct (Nat.eqb k 0), (pf_los p); cbn [andb]; apply cplx_eq; cbn; ring.
  - intros r s k i j H1 H2 H3 H4. rewrite COV by assumption. rewrite !Nat.eqb_refl. cbn [andb].
    rewrite <- (taps_split chol a p t k S).
    assert (pf_los p && (Nat.eqb k 0 && Nat.eqb k 0) = false) as ->.
    { destruct H4 as [->|H4]; [reflexivity|]. destruct (Nat.eqb_spec k 0); [lia|]. cbn. apply andb_false_r. }
    assert (pf_los p && Nat.eqb k 0 = false) as ->.
    { destruct H4 as [->|H4]; [reflexivity|]. destruct (Nat.eqb_spec k 0); [lia|]. apply andb_false_r. }
    rewrite Rplus_0_r. ring.
  - intros r s i j H1 H2 EL. rewrite COV by auto. rewrite !Nat.eqb_refl, EL. cbn [andb].
    rewrite (sh_powers _ _ _ _ S), (sh_los_power _ _ _ _ S), (sh_aoa _ _ _ _ S). unfold diffuse_powers, specular_power. rewrite EL.
    assert (LL : length (linear_powers p) = length (pf_rows p)) by (unfold linear_powers; apply map_length).
    pose proof (sh_rows2 _ _ _ _ S EL). destruct (linear_powers p) as [|y [|y' l]] eqn:El; cbn in LL; try lia.
    exists y, y', l. split; reflexivity.
  - intros r s k i r' s' k' j H1 H2 H3 H4 H5 H6 NE H7. rewrite COV by assumption.
    assert (Nat.eqb r r' && Nat.eqb s s' && Nat.eqb k k' = false) as ->.
    { destruct (Nat.eqb_spec r r'), (Nat.eqb_spec s s'), (Nat.eqb_spec k k'); try reflexivity. subst. congruence. }
    assert (pf_los p && (Nat.eqb k 0 && Nat.eqb k' 0) = false) as ->.
    { destruct H7 as [->|[H7|H7]]; [reflexivity| |]; destruct (Nat.eqb_spec k 0), (Nat.eqb_spec k' 0); try lia; cbn; apply andb_false_r. }
    ring.
Qed.

(* C72: the full spatial correlation matrix *)
Lemma C72_full_l chol a t p E fs w th Rm :
  (forall l, chol (ta_rx a * ta_tx a)%nat Rm = Some l -> square_root (ta_rx a * ta_tx a) Rm l) ->
  tdl_init chol a = Ok t -> documented_profile (ta_model a) = Some p ->
  ta_spatial a = Some Rm -> (0 < ta_sinusoids a)%nat ->
  phase_mean (ta_rx a) (ta_tx a) (length (tap_powers p)) (ta_sinusoids a) E ->
  exists H : phases -> R -> nat -> nat -> nat -> nat -> cplx,
    (forall x z, tdl_call t fs (TdlDraws w th x z) = Ok (H x z, tdl_delays t)) /\
    forall r s r' s' k i j, (r < ta_rx a)%nat -> (s < ta_tx a)%nat -> (r' < ta_rx a)%nat -> (s' < ta_tx a)%nat ->
      (k < length (tap_powers p))%nat -> pf_los p = false \/ (0 < k)%nat ->
      correlation E (fun x z => H x z r s k i) (fun x z => H x z r' s' k j) =
      cmul (cmul (creal (nth k (tap_powers p) 0 / total_power p)) (scatter_autocorrelation (ta_sinusoids a) w (th k) (INR i / fs - INR j / fs)))
           (Rm (r * ta_tx a + s)%nat (r' * ta_tx a + s')%nat).
Proof.
  intros CH I D C1 N PM. pose proof (init_shape _ _ _ _ I D) as S.
  destruct (sh_corr _ _ _ _ S Rm C1) as (l & El & EC). apply CH in El.
  exists (fun x z => tdl_correlate t (tdl_taps t fs (TdlDraws w th x z))).
  split. { intros x z. apply (call_ok chol a p t fs _ S). }
  assert (PM' : phase_mean (ta_rx a) (ta_tx a) (length (tap_powers p)) (td_sinusoids t) E) by (rewrite (sh_sin _ _ _ _ S); exact PM).
  assert (N' : (0 < td_sinusoids t)%nat) by (rewrite (sh_sin _ _ _ _ S); exact N).
  assert (P' : forall k, 0 <= nth k (td_powers t) 0) by (intros; apply (powers_nonneg chol a p t k S)).
  pose proof (los_nonneg chol a p t S) as PL.
  assert (COV := fun r s q i r' s' q' j => cov_taps t _ _ _ E PM' N' P' fs w th r s q i r' s' q' j PL).
  rewrite (sh_los _ _ _ _ S), (sh_sin _ _ _ _ S) in COV.
  intros r s r' s' k i j H1 H2 H3 H4 H5 H6. unfold tdl_correlate. rewrite EC, (sh_rx _ _ _ _ S), (sh_tx _ _ _ _ S).
  unfold correlation.
  rewrite (E_mix _ _ _ _ E PM _ _ _ _ (fun q x z => tdl_taps t fs (TdlDraws w th x z) (q / ta_tx a)%nat (q mod ta_tx a)%nat k i)
     (fun q x z => tdl_taps t fs (TdlDraws w th x z) (q / ta_tx a)%nat (q mod ta_tx a)%nat k j)).
  set (A := cmul (creal (nth k (tap_powers p) 0 / total_power p)) _).
  assert (B : forall q, (q < ta_rx a * ta_tx a)%nat -> (q / ta_tx a < ta_rx a)%nat /\ (q mod ta_tx a < ta_tx a)%nat).
  { intros q Hq. split; [apply Nat.div_lt_upper_bound; lia|apply Nat.mod_upper_bound; lia]. }
  assert (B2 : forall u v, (u < ta_rx a)%nat -> (v < ta_tx a)%nat -> (u * ta_tx a + v < ta_rx a * ta_tx a)%nat) by (intros; nia).
  rewrite (El (r * ta_tx a + s)%nat (r' * ta_tx a + s')%nat) by (apply B2; assumption).
  rewrite <- csumN_mul_l. apply csumN_ext. intros q Hq.
  assert (K0 : forall q', pf_los p && (Nat.eqb k 0 && Nat.eqb q' 0) = false).
  { intros q'. destruct H6 as [->|H6]; [reflexivity|]. destruct (Nat.eqb_spec k 0); [lia|]. apply andb_false_r. }
  rewrite (csumN_single _ _ q Hq).
  - destruct (B q Hq). rewrite COV by assumption. rewrite !Nat.eqb_refl, K0. cbn [andb].
    unfold A. rewrite <- (taps_split chol a p t k S).
    assert (pf_los p && Nat.eqb k 0 = false) as -> by (generalize (K0 0%nat); cbn; rewrite andb_true_r; exact (fun h => h)).
    rewrite Rplus_0_r. ring.
  - intros q' Hq' NE. destruct (B q Hq), (B q' Hq'). rewrite COV by assumption. rewrite K0.
    assert (Nat.eqb (q / ta_tx a) (q' / ta_tx a) && Nat.eqb (q mod ta_tx a) (q' mod ta_tx a) && Nat.eqb k k = false) as ->.
    { destruct (Nat.eqb_spec (q / ta_tx a) (q' / ta_tx a)); [|reflexivity].
      destruct (Nat.eqb_spec (q mod ta_tx a) (q' mod ta_tx a)); [|reflexivity].
      exfalso. apply NE. assert (ta_tx a <> 0)%nat by lia. rewrite (Nat.div_mod q (ta_tx a)), (Nat.div_mod q' (ta_tx a)) by assumption. congruence. }
    ring.
Qed.

(* one-sided correlation matrices; tx side as computed by the code: h @ L *)
Lemma C72_split_l chol a t p E fs w th :
  tdl_init chol a = Ok t -> documented_profile (ta_model a) = Some p ->
  ta_spatial a = None -> (0 < ta_sinusoids a)%nat ->
  phase_mean (ta_rx a) (ta_tx a) (length (tap_powers p)) (ta_sinusoids a) E ->
  exists (H : phases -> R -> nat -> nat -> nat -> nat -> cplx),
    (forall x z, tdl_call t fs (TdlDraws w th x z) = Ok (H x z, tdl_delays t)) /\
    forall r s r' s' k i j, (r < ta_rx a)%nat -> (s < ta_tx a)%nat -> (r' < ta_rx a)%nat -> (s' < ta_tx a)%nat ->
      (k < length (tap_powers p))%nat -> pf_los p = false \/ (0 < k)%nat ->
      let A := cmul (creal (nth k (tap_powers p) 0 / total_power p)) (scatter_autocorrelation (ta_sinusoids a) w (th k) (INR i / fs - INR j / fs)) in
      correlation E (fun x z => H x z r s k i) (fun x z => H x z r' s' k j) =
      cmul (cmul A
        (match ta_rx_corr a with None => if Nat.eqb r r' then c1 else c0
         | Some m => match chol (ta_rx a) m with None => c0 | Some l => csumN (ta_rx a) (fun q => cmul (l r q) (cconj (l r' q))) end end))
        (match ta_tx_corr a with None => if Nat.eqb s s' then c1 else c0
         | Some m => match chol (ta_tx a) m with None => c0 | Some l => csumN (ta_tx a) (fun q => cmul (l q s) (cconj (l q s'))) end end).
Proof.
  intros I D C1 N PM. pose proof (init_shape _ _ _ _ I D) as S.
  destruct (sh_corr2 _ _ _ _ S C1) as (lr & lt & EC & Er & Et).
  exists (fun x z => tdl_correlate t (tdl_taps t fs (TdlDraws w th x z))).
  split. { intros x z. apply (call_ok chol a p t fs _ S). }
  assert (PM' : phase_mean (ta_rx a) (ta_tx a) (length (tap_powers p)) (td_sinusoids t) E) by (rewrite (sh_sin _ _ _ _ S); exact PM).
  assert (N' : (0 < td_sinusoids t)%nat) by (rewrite (sh_sin _ _ _ _ S); exact N).
  assert (P' : forall k, 0 <= nth k (td_powers t) 0) by (intros; apply (powers_nonneg chol a p t k S)).
  pose proof (los_nonneg chol a p t S) as PL.
  assert (COV := fun r s q i r' s' q' j => cov_taps t _ _ _ E PM' N' P' fs w th r s q i r' s' q' j PL).
  rewrite (sh_los _ _ _ _ S), (sh_sin _ _ _ _ S) in COV.
  intros r s r' s' k i j H1 H2 H3 H4 H5 H6 A.
  assert (K0 : forall q', pf_los p && (Nat.eqb k 0 && Nat.eqb q' 0) = false).
  { intros q'. destruct H6 as [->|H6]; [reflexivity|]. destruct (Nat.eqb_spec k 0); [lia|]. apply andb_false_r. }
  (* uncorrelated taps *)
  assert (T0 : forall r s r' s', (r < ta_rx a)%nat -> (s < ta_tx a)%nat -> (r' < ta_rx a)%nat -> (s' < ta_tx a)%nat ->
    correlation E (fun x z => tdl_taps t fs (TdlDraws w th x z) r s k i) (fun x z => tdl_taps t fs (TdlDraws w th x z) r' s' k j) =
    cmul (cmul A (if Nat.eqb r r' then c1 else c0)) (if Nat.eqb s s' then c1 else c0)).
  { intros u v u' v' G1 G2 G3 G4. rewrite COV by assumption. rewrite K0, Nat.eqb_refl, andb_true_r. unfold A.
    rewrite <- (taps_split chol a p t k S).
    assert (pf_los p && Nat.eqb k 0 = false) as -> by (generalize (K0 0%nat); cbn; rewrite andb_true_r; exact (fun h => h)).
    rewrite Rplus_0_r. destruct (Nat.eqb u u'), (Nat.eqb v v'); cbn [andb]; ring. }
  clear COV.
  (* receive side *)
  set (h1 := fun x z => match lr with None => tdl_taps t fs (TdlDraws w th x z)
       | Some l => fun r s p i => csumN (ta_rx a) (fun q => cmul (l r q) (tdl_taps t fs (TdlDraws w th x z) q s p i)) end).
  set (X := match ta_rx_corr a with None => if Nat.eqb r r' then c1 else c0 | Some m => _ end).
  assert (T1 : forall s s', (s < ta_tx a)%nat -> (s' < ta_tx a)%nat ->
    correlation E (fun x z => h1 x z r s k i) (fun x z => h1 x z r' s' k j) = cmul (cmul A X) (if Nat.eqb s s' then c1 else c0)).
  { intros v v' G1 G2. unfold h1, X. destruct (ta_rx_corr a) as [m|].
    - destruct Er as (l & El & ->). rewrite El. unfold correlation.
      rewrite (E_mix _ _ _ _ E PM _ _ _ _ (fun q x z => tdl_taps t fs (TdlDraws w th x z) q v k i) (fun q x z => tdl_taps t fs (TdlDraws w th x z) q v' k j)).
      rewrite <- csumN_mul_l, <- csumN_mul_r. apply csumN_ext. intros q Hq. rewrite (csumN_single _ _ q Hq).
      + rewrite T0 by assumption. rewrite Nat.eqb_refl. ring.
      + intros q' Hq' NE. rewrite T0 by assumption. destruct (Nat.eqb_spec q q'); [congruence|]. ring.
    - subst lr. apply T0; assumption. }
  clear T0. unfold tdl_correlate. rewrite EC, (sh_rx _ _ _ _ S), (sh_tx _ _ _ _ S).
  set (Y := match ta_tx_corr a with None => if Nat.eqb s s' then c1 else c0 | Some m => _ end).
  transitivity (correlation E (fun x z => match lt with None => h1 x z | Some l => fun r s p i => csumN (ta_tx a) (fun q => cmul (h1 x z r q p i) (l q s)) end r s k i)
                              (fun x z => match lt with None => h1 x z | Some l => fun r s p i => csumN (ta_tx a) (fun q => cmul (h1 x z r q p i) (l q s)) end r' s' k j)).
  { unfold correlation. apply (pm_ext _ _ _ _ _ PM). intros x z. unfold h1. destruct lr, lt; reflexivity. }
  unfold Y. destruct (ta_tx_corr a) as [m|].
  - destruct Et as (l & El & ->). rewrite El. unfold correlation.
    rewrite (pm_ext _ _ _ _ _ PM _ (fun x z => cmul (csumN (ta_tx a) (fun q => cmul (l q s) (h1 x z r q k i)))
       (cconj (csumN (ta_tx a) (fun q => cmul (l q s') (h1 x z r' q k j)))))).
    2: { intros x z. f_equal; [|f_equal]; apply csumN_ext; intros; ring. }
    rewrite (E_mix _ _ _ _ E PM _ _ _ _ (fun q x z => h1 x z r q k i) (fun q x z => h1 x z r' q k j)).
    rewrite <- csumN_mul_l. apply csumN_ext. intros q Hq. rewrite (csumN_single _ _ q Hq).
    + rewrite T1 by assumption. rewrite Nat.eqb_refl. ring.
    + intros q' Hq' NE. rewrite T1 by assumption. destruct (Nat.eqb_spec q q'); [congruence|]. ring.
  - subst lt. apply T1; assumption.
Qed.
