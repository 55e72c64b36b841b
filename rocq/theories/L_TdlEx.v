(* A phase average exists, and the transmit correlation of the delay lines: C54, C72. *)
From Coq Require Import Reals String List Bool Arith Lia Lra ZArith.
From Verif Require Import M_Base L_Base L_Trig M_Json D_Links M_Params M_Geometry M_Cplx L_Coeff M_Convert M_Links S_Convert S_Links L_Csum L_Grids L_Convert L_Tdl L_TdlCov.
Import ListNotations.
Open Scope string_scope.
Open Scope list_scope.
Open Scope R_scope.

(* ---- sums of roots of unity ---- *)
Lemma roots_sum M (d : Z) : (0 < M)%nat -> (Z.abs d < Z.of_nat M)%Z -> d <> 0%Z ->
  csumN M (fun m => cexpi (2 * PI * INR m * IZR d / INR M)) = c0.
Proof.
  intros HM B N. set (x := 2 * PI * IZR d / INR M).
  assert (MP : 0 < INR M) by (apply lt_0_INR; exact HM).
  rewrite (csumN_ext M _ (fun m => cexpi (INR m * x))) by (intros; f_equal; unfold x; field; lra).
  assert (G : forall m, cmul (csub c1 (cexpi x)) (csumN m (fun k => cexpi (INR k * x))) = csub c1 (cexpi (INR m * x))).
  { induction m as [|m IH]; [rewrite csumN_0; cbn [INR]; rewrite Rmult_0_l; unfold cexpi; rewrite cos_0, sin_0; apply cplx_eq; cbn; ring|].
    rewrite csumN_S, S_INR. transitivity (cadd (cmul (csub c1 (cexpi x)) (csumN m (fun k => cexpi (INR k * x)))) (cmul (csub c1 (cexpi x)) (cexpi (INR m * x)))); [ring|].
    rewrite IH. replace ((INR m + 1) * x) with (INR m * x + x) by ring. rewrite cexpi_add. ring. }
  specialize (G M). replace (INR M * x) with (0 + 2 * PI * IZR d) in G by (unfold x; field; lra).
  rewrite cexpi_turns in G. replace (csub c1 (cexpi 0)) with c0 in G by (unfold cexpi; rewrite cos_0, sin_0; apply cplx_eq; cbn; ring).
  assert (NZ : 1 - cos x <> 0).
  { replace x with (2 * (x / 2)) by field. rewrite cos_2a_sin.
    assert (S : sin (x / 2) <> 0).
    { assert (E : x / 2 = PI * (IZR d / INR M)) by (unfold x; field; lra).
      assert (Bd : -1 < IZR d / INR M < 1).
      { rewrite INR_IZR_INZ in MP |- *. split; apply (Rmult_lt_reg_r (IZR (Z.of_nat M)));
        try exact MP; unfold Rdiv; rewrite Rmult_assoc, Rinv_l by lra; rewrite Rmult_1_r;
        [rewrite <- (mult_IZR (-1))|rewrite <- (mult_IZR 1)]; apply IZR_lt; lia. }
      assert (Nd : IZR d / INR M <> 0).
      { intros Z. apply N. apply eq_IZR. unfold Rdiv in Z. apply Rmult_integral in Z. destruct Z as [Z|Z]; [exact Z|].
        exfalso. apply (Rinv_neq_0_compat (INR M)); lra. }
      pose proof PI_RGT_0. rewrite E. destruct (Rtotal_order (IZR d / INR M) 0) as [L|[L|L]]; [|contradiction|].
      - replace (PI * (IZR d / INR M)) with (- (PI * - (IZR d / INR M))) by ring. rewrite sin_neg.
        assert (0 < sin (PI * - (IZR d / INR M))) by (apply sin_gt_0; nra). lra.
      - assert (0 < sin (PI * (IZR d / INR M))) by (apply sin_gt_0; nra). lra. }
    intros Z. apply S. nra. }
  set (S := csumN M _) in *. clearbody S. destruct S as [a b]. unfold cexpi in G. injection G as G1 G2. cbn in G1, G2.
  pose proof (sin2_cos2 x) as T. unfold Rsqr in T.
  assert (X : (1 - cos x) * (a * a + b * b) = 0).
  { assert (Q1 : (1 - cos x) * a + sin x * b = 0) by lra. assert (Q2 : (1 - cos x) * b - sin x * a = 0) by lra.
    replace ((1 - cos x) * (a * a + b * b)) with (((1 - cos x) * a + sin x * b) * a + ((1 - cos x) * b - sin x * a) * b) by ring.
    rewrite Q1, Q2. ring. }
  apply Rmult_integral in X. destruct X as [X|X]; [contradiction|]. apply cplx_eq; cbn; nra.
Qed.

(* averaging over M equally spaced rotations, one per draw with a different frequency *)
Definition code (nt np n r s p k : nat) : nat := (S (((r * nt + s) * np + p) * n + k))%nat.
Definition grid_mean (nr nt np n : nat) (f : phases -> R -> cplx) : cplx :=
  let M := S (nr * nt * np * n) in
  cmul (creal (/ INR M)) (csumN M (fun m => f (fun r s p k => 2 * PI * INR m * INR (code nt np n r s p k) / INR M) 0)).

Lemma pair_bound a b na nb : (a < na)%nat -> (b < nb)%nat -> (a * nb + b < na * nb)%nat.
Proof. nia. Qed.
Lemma code_bound nr nt np n r s p k : (r < nr)%nat -> (s < nt)%nat -> (p < np)%nat -> (k < n)%nat ->
  (0 < code nt np n r s p k < S (nr * nt * np * n))%nat.
Proof.
  intros. unfold code. split; [lia|]. apply -> Nat.succ_lt_mono.
  apply pair_bound; [|assumption]. apply pair_bound; [|assumption]. apply pair_bound; assumption.
Qed.
Lemma pair_inj a b a' b' nb : (b < nb)%nat -> (b' < nb)%nat -> (a * nb + b = a' * nb + b')%nat -> a = a' /\ b = b'.
Proof.
  intros H H' E. assert (a = a').
  { destruct (lt_eq_lt_dec a a') as [[L|L]|L]; [exfalso|exact L|exfalso]; nia. }
  subst. split; [reflexivity|lia].
Qed.
Lemma code_inj nt np n r s p k r' s' p' k' : (s < nt)%nat -> (p < np)%nat -> (k < n)%nat -> (s' < nt)%nat -> (p' < np)%nat -> (k' < n)%nat ->
  code nt np n r s p k = code nt np n r' s' p' k' -> same4 r s p k r' s' p' k' = true.
Proof.
  intros H1 H2 H3 H4 H5 H6 E. unfold code in E. injection E as E.
  apply pair_inj in E; [|assumption|assumption]. destruct E as [E ->].
  apply pair_inj in E; [|assumption|assumption]. destruct E as [E ->].
  apply pair_inj in E; [|assumption|assumption]. destruct E as [-> ->].
  unfold same4. rewrite !Nat.eqb_refl. reflexivity.
Qed.

Lemma phase_mean_exists_l nr nt np n : phase_mean nr nt np n (grid_mean nr nt np n).
Proof.
  set (M := S (nr * nt * np * n)). assert (MP : 0 < INR M) by (apply lt_0_INR; unfold M; lia).
  assert (D : forall d : Z, (Z.abs d < Z.of_nat M)%Z -> d <> 0%Z ->
    cmul (creal (/ INR M)) (csumN M (fun m => cexpi (2 * PI * INR m * IZR d / INR M))) = c0).
  { intros d B N. rewrite roots_sum by (assumption || (unfold M; lia)). ring. }
  assert (O : cmul (creal (/ INR M)) (csumN M (fun _ => c1)) = c1).
  { assert (S : forall m, csumN m (fun _ => c1) = creal (INR m)).
    { induction m as [|m IH]; [reflexivity|]. rewrite csumN_S, IH, S_INR. apply cplx_eq; cbn; ring. }
    rewrite S, <- creal_mul. unfold creal, c1. f_equal. field. lra. }
  constructor; unfold grid_mean; fold M; cbv zeta.
  - intros f g H. f_equal. apply csumN_ext. intros; apply H.
  - intros f g. rewrite csumN_add. ring.
  - intros c f. rewrite csumN_mul_l. ring.
  - exact O.
  - intros r s p k r' s' p' k' H1 H2 H3 H4 H5 H6 H7 H8.
    pose proof (code_bound nr nt np n r s p k H1 H2 H3 H4) as B1. pose proof (code_bound nr nt np n r' s' p' k' H5 H6 H7 H8) as B2. fold M in B1, B2.
    set (c := code nt np n r s p k) in *. set (c' := code nt np n r' s' p' k') in *.
    rewrite (csumN_ext M _ (fun m => cexpi (2 * PI * INR m * IZR (Z.of_nat c - Z.of_nat c') / INR M))).
    2: { intros m _. f_equal. rewrite minus_IZR, <- !INR_IZR_INZ. field. lra. }
    destruct (same4 r s p k r' s' p' k') eqn:Q.
    + unfold same4 in Q. apply andb_prop in Q. destruct Q as [Q Q4]. apply andb_prop in Q. destruct Q as [Q Q3]. apply andb_prop in Q. destruct Q as [Q1 Q2].
      apply Nat.eqb_eq in Q1, Q2, Q3, Q4. subst r' s' p' k'. fold c in c'. subst c'. rewrite Z.sub_diag.
      rewrite (csumN_ext M _ (fun _ => c1)); [exact O|]. intros m _. replace (2 * PI * INR m * 0 / INR M) with 0 by (field; lra).
      unfold cexpi. rewrite cos_0, sin_0. reflexivity.
    + apply D; [lia|]. intros Z. assert (c = c') by lia.
      assert (same4 r s p k r' s' p' k' = true) by (apply (code_inj nt np n); assumption). congruence.
  - intros r s p k H1 H2 H3 H4. pose proof (code_bound nr nt np n r s p k H1 H2 H3 H4) as B. fold M in B. set (c := code nt np n r s p k) in *.
    rewrite (csumN_ext M _ (fun m => cexpi (2 * PI * INR m * IZR (- Z.of_nat c) / INR M))); [apply D; lia|].
    intros m _. f_equal. rewrite opp_IZR, <- INR_IZR_INZ. field. lra.
  - intros r s p k H1 H2 H3 H4. pose proof (code_bound nr nt np n r s p k H1 H2 H3 H4) as B. fold M in B. set (c := code nt np n r s p k) in *.
    rewrite (csumN_ext M _ (fun m => cexpi (2 * PI * INR m * IZR (Z.of_nat c) / INR M))); [apply D; lia|].
    intros m _. f_equal. rewrite <- INR_IZR_INZ. field. lra.
Qed.

(* ---- the transmit side ---- *)
(* the documented transmit correlation, and its Cholesky factor *)
Definition tx_example : cmatrix := fun i j => if Nat.eqb i j then c1 else creal 0.5.
Definition chol_example (n : nat) (m : cmatrix) : option cmatrix :=
  Some (fun i j => match i, j with
                   | O, O => c1 | S O, O => creal 0.5 | S O, S O => creal (sqrt 0.75) | _, _ => c0 end).
Lemma chol_example_ok l : chol_example 2 tx_example = Some l ->
  square_root 2 tx_example l /\ (forall i j, (i < j)%nat -> l i j = c0).
Proof.
  unfold chol_example. intros [= <-]. split.
  - intros i j Hi Hj. unfold csumN, csum. cbn [seq map fold_right].
    assert (S : sqrt 0.75 * sqrt 0.75 = 0.75) by (apply sqrt_sqrt; lra).
    destruct i as [|[|i]]; try lia; destruct j as [|[|j]]; try lia; apply cplx_eq; cbn; try lra; unfold tx_example; cbn; lra.
  - intros i j H. destruct i as [|[|i]], j as [|[|j]]; try lia; reflexivity.
Qed.
Definition tx_args : tdl_args :=
  TdlArgs "A" 1e-7 2e9 8 0.5 0 None 1 2 None None (Some tx_example) 600000 45.

Lemma C72_tx_refuted_l : exists chol a t p R_tx E,
  tdl_init chol a = Ok t /\ documented_profile (ta_model a) = Some p /\ ta_spatial a = None /\ ta_rx_corr a = None /\
  ta_tx_corr a = Some R_tx /\ (exists l, chol (ta_tx a) R_tx = Some l /\ square_root (ta_tx a) R_tx l /\ forall i j, (i < j)%nat -> l i j = c0) /\
  phase_mean (ta_rx a) (ta_tx a) (length (tap_powers p)) (ta_sinusoids a) E /\
  forall fs w th, exists H : phases -> R -> nat -> nat -> nat -> nat -> cplx,
    (forall x z, tdl_call t fs (TdlDraws w th x z) = Ok (H x z, tdl_delays t)) /\
    forall k i, (k < length (tap_powers p))%nat ->
      let P := nth k (tap_powers p) 0 / total_power p in
      correlation E (fun x z => H x z 0 0 k i)%nat (fun x z => H x z 0 0 k i)%nat = creal (1.25 * P) /\
      correlation E (fun x z => H x z 0 1 k i)%nat (fun x z => H x z 0 1 k i)%nat = creal (0.75 * P) /\
      R_tx 0%nat 0%nat = c1 /\ R_tx 1%nat 1%nat = c1 /\ 0 < P.
Proof.
  assert (D : documented_profile "A" = Some (Profile false true [(0, 0); (1.0811, -4.675); (2.8416, -6.482)])) by reflexivity.
  set (p := Profile _ _ _) in D.
  destruct (C54_constructs_l chol_example tx_args p D) as [t I]; cbn [tx_args ta_height ta_elev ta_max_speed ta_spatial ta_rx_corr ta_tx_corr];
    [lra|lra|exact Logic.I|discriminate|discriminate|intros; eexists; reflexivity|].
  exists chol_example, tx_args, t, p, tx_example, (grid_mean 1 2 (length (tap_powers p)) 8).
  split; [exact I|]. split; [exact D|]. do 3 (split; [reflexivity|]). split.
  { eexists. split; [reflexivity|]. apply chol_example_ok. reflexivity. }
  split; [apply phase_mean_exists_l|]. intros fs w th.
  destruct (C72_split_l chol_example tx_args t p (grid_mean 1 2 (length (tap_powers p)) 8) fs w th I D eq_refl) as (H & HC & HV);
    [cbn; lia|apply phase_mean_exists_l|].
  exists H. split; [exact HC|]. intros k i Hk.
  pose proof (init_shape _ _ _ _ I D) as S. pose proof (total_pos p (sh_rows _ _ _ _ S)) as T.
  assert (PP : 0 < nth k (tap_powers p) 0 / total_power p).
  { apply Rdiv_lt_0_compat; [|exact T]. apply (tap_pos p). apply nth_In. exact Hk. }
  set (P := nth k (tap_powers p) 0 / total_power p) in *. cbv zeta.
  assert (SQ : sqrt 0.75 * sqrt 0.75 = 0.75) by (apply sqrt_sqrt; lra).
  repeat split; try assumption.
  - rewrite (HV 0 0 0 0 k i i)%nat by (cbn; try lia; try exact Hk; left; reflexivity).
    replace (INR i / fs - INR i / fs) with 0 by ring. rewrite auto_zero by (cbn; lia). fold P.
    cbn [tx_args ta_rx_corr ta_tx_corr ta_tx ta_rx chol_example Nat.eqb]. unfold csumN, csum. cbn [seq map fold_right].
    apply cplx_eq; cbn; lra.
  - rewrite (HV 0 1 0 1 k i i)%nat by (cbn; try lia; try exact Hk; left; reflexivity).
    replace (INR i / fs - INR i / fs) with 0 by ring. rewrite auto_zero by (cbn; lia). fold P.
    cbn [tx_args ta_rx_corr ta_tx_corr ta_tx ta_rx chol_example Nat.eqb]. unfold csumN, csum. cbn [seq map fold_right].
    apply cplx_eq; cbn; nra.
Qed.

(* C72: the receive side, and a transmit side without correlation *)
Lemma C72_rx_l chol a t p E fs w th R_rx :
  (forall l, chol (ta_rx a) R_rx = Some l -> square_root (ta_rx a) R_rx l) ->
  tdl_init chol a = Ok t -> documented_profile (ta_model a) = Some p ->
  ta_spatial a = None -> ta_rx_corr a = Some R_rx -> ta_tx_corr a = None -> (0 < ta_sinusoids a)%nat ->
  phase_mean (ta_rx a) (ta_tx a) (length (tap_powers p)) (ta_sinusoids a) E ->
  exists H : phases -> R -> nat -> nat -> nat -> nat -> cplx,
    (forall x z, tdl_call t fs (TdlDraws w th x z) = Ok (H x z, tdl_delays t)) /\
    forall r s r' s' k i j, (r < ta_rx a)%nat -> (s < ta_tx a)%nat -> (r' < ta_rx a)%nat -> (s' < ta_tx a)%nat ->
      (k < length (tap_powers p))%nat -> pf_los p = false \/ (0 < k)%nat ->
      correlation E (fun x z => H x z r s k i) (fun x z => H x z r' s' k j) =
      cmul (cmul (creal (nth k (tap_powers p) 0 / total_power p)) (scatter_autocorrelation (ta_sinusoids a) w (th k) (INR i / fs - INR j / fs)))
           (if Nat.eqb s s' then R_rx r r' else c0).
Proof.
  intros CH I D C1 C2 C3 N PM. pose proof (init_shape _ _ _ _ I D) as S.
  destruct (C72_split_l chol a t p E fs w th I D C1 N PM) as (H & HC & HV). exists H. split; [exact HC|].
  intros r s r' s' k i j H1 H2 H3 H4 H5 H6. rewrite HV by assumption. rewrite C2, C3.
  destruct (sh_corr2 _ _ _ _ S C1) as (lr & lt & _ & Er & _). rewrite C2 in Er. destruct Er as (l & El & _). rewrite El.
  apply CH in El. rewrite (El r r') by assumption. destruct (Nat.eqb s s'); ring.
Qed.
