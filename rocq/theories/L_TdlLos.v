(* The first tap of a LoS tapped delay line with a full spatial correlation matrix: C72. *)
From Coq Require Import Reals String List Bool Arith Lia Lra ZArith.
From Verif Require Import M_Base L_Base L_Trig M_Json D_Links M_Params M_Geometry M_Cplx L_Coeff M_Convert M_Links S_Convert S_Links L_Csum L_Grids L_Convert L_Tdl L_TdlCov L_TdlEx.
Import ListNotations.
Open Scope string_scope.
Open Scope list_scope.
Open Scope R_scope.

Lemma C72_law_l chol a t p E fs w th Rm :
  (forall l, chol (ta_rx a * ta_tx a)%nat Rm = Some l -> square_root (ta_rx a * ta_tx a) Rm l) ->
  tdl_init chol a = Ok t -> documented_profile (ta_model a) = Some p ->
  ta_spatial a = Some Rm -> (0 < ta_sinusoids a)%nat ->
  phase_mean (ta_rx a) (ta_tx a) (length (tap_powers p)) (ta_sinusoids a) E ->
  exists (H : phases -> R -> nat -> nat -> nat -> nat -> cplx) l,
    chol (ta_rx a * ta_tx a)%nat Rm = Some l /\
    (forall x z, tdl_call t fs (TdlDraws w th x z) = Ok (H x z, tdl_delays t)) /\
    forall r s r' s' k k' i j, (r < ta_rx a)%nat -> (s < ta_tx a)%nat -> (r' < ta_rx a)%nat -> (s' < ta_tx a)%nat ->
      (k < length (tap_powers p))%nat -> (k' < length (tap_powers p))%nat ->
      let n := (ta_rx a * ta_tx a)%nat in
      let P := (r * ta_tx a + s)%nat in
      let Q := (r' * ta_tx a + s')%nat in
      correlation E (fun x z => H x z r s k i) (fun x z => H x z r' s' k' j) =
      cadd (if Nat.eqb k k'
            then cmul (cmul (creal (nth k (if pf_los p then tl (linear_powers p) else linear_powers p) 0 / total_power p))
                            (scatter_autocorrelation (ta_sinusoids a) w (th k) (INR i / fs - INR j / fs))) (Rm P Q)
            else c0)
           (if pf_los p && (Nat.eqb k 0 && Nat.eqb k' 0)
            then cmul (cmul (creal (hd 0 (linear_powers p) / total_power p)) (cexpi (w * (INR i / fs - INR j / fs) * cos (ta_aoa a))))
                      (cmul (csumN n (l P)) (cconj (csumN n (l Q))))
            else c0).
Proof.
  intros CH I D C1 N PM. pose proof (init_shape _ _ _ _ I D) as S.
  destruct (sh_corr _ _ _ _ S Rm C1) as (l & El & EC). assert (SR := CH l El).
  exists (fun x z => tdl_correlate t (tdl_taps t fs (TdlDraws w th x z))), l. split; [exact El|].
  split. { intros x z. apply (call_ok chol a p t fs _ S). }
  assert (PM' : phase_mean (ta_rx a) (ta_tx a) (length (tap_powers p)) (td_sinusoids t) E) by (rewrite (sh_sin _ _ _ _ S); exact PM).
  assert (N' : (0 < td_sinusoids t)%nat) by (rewrite (sh_sin _ _ _ _ S); exact N).
  assert (P' : forall k, 0 <= nth k (td_powers t) 0) by (intros; apply (powers_nonneg chol a p t k S)).
  pose proof (los_nonneg chol a p t S) as PL.
  assert (COV := fun r s q i r' s' q' j => cov_taps t _ _ _ E PM' N' P' fs w th r s q i r' s' q' j PL).
  rewrite (sh_los _ _ _ _ S), (sh_sin _ _ _ _ S), (sh_aoa _ _ _ _ S) in COV.
  intros r s r' s' k k' i j H1 H2 H3 H4 H5 H6 n P Q. unfold tdl_correlate. rewrite EC, (sh_rx _ _ _ _ S), (sh_tx _ _ _ _ S).
  unfold correlation.
  rewrite (E_mix _ _ _ _ E PM _ _ _ _ (fun q x z => tdl_taps t fs (TdlDraws w th x z) (q / ta_tx a)%nat (q mod ta_tx a)%nat k i)
     (fun q x z => tdl_taps t fs (TdlDraws w th x z) (q / ta_tx a)%nat (q mod ta_tx a)%nat k' j)).
  fold n P Q.
  assert (B : forall q, (q < n)%nat -> (q / ta_tx a < ta_rx a)%nat /\ (q mod ta_tx a < ta_tx a)%nat).
  { intros q Hq. unfold n in Hq. split; [apply Nat.div_lt_upper_bound; lia|apply Nat.mod_upper_bound; lia]. }
  assert (B2 : forall u v, (u < ta_rx a)%nat -> (v < ta_tx a)%nat -> (u * ta_tx a + v < n)%nat) by (unfold n; intros; nia).
  set (A := cmul (creal (nth k (td_powers t) 0)) (scatter_autocorrelation (ta_sinusoids a) w (th k) (INR i / fs - INR j / fs))).
  set (Z := if pf_los p && (Nat.eqb k 0 && Nat.eqb k' 0)
            then cmul (creal (td_los_power t)) (cexpi (w * (INR i / fs - INR j / fs) * cos (ta_aoa a))) else c0).
  assert (Same : forall q q', (q < n)%nat -> (q' < n)%nat ->
    Nat.eqb (q / ta_tx a) (q' / ta_tx a) && Nat.eqb (q mod ta_tx a) (q' mod ta_tx a) = Nat.eqb q q').
  { intros q q' Hq Hq'. destruct (Nat.eqb_spec q q') as [->|NE]; [rewrite !Nat.eqb_refl; reflexivity|].
    destruct (Nat.eqb_spec (q / ta_tx a) (q' / ta_tx a)); [|reflexivity].
    destruct (Nat.eqb_spec (q mod ta_tx a) (q' mod ta_tx a)); [|reflexivity].
    exfalso. apply NE. assert (ta_tx a <> 0)%nat by lia. rewrite (Nat.div_mod q (ta_tx a)), (Nat.div_mod q' (ta_tx a)) by assumption. congruence. }
  transitivity (csumN n (fun q => csumN n (fun q' => cadd
     (cmul (cmul (l P q) (cconj (l Q q'))) (if Nat.eqb q q' && Nat.eqb k k' then A else c0))
     (cmul (cmul Z (l P q)) (cconj (l Q q')))))).
  { apply csumN_ext. intros q Hq. apply csumN_ext. intros q' Hq'. destruct (B q Hq), (B q' Hq').
    rewrite COV by assumption. rewrite (Same q q' Hq Hq'). fold A Z. ring. }
  transitivity (cadd (csumN n (fun q => cmul (cmul (l P q) (cconj (l Q q))) (if Nat.eqb k k' then A else c0)))
                     (cmul Z (cmul (csumN n (l P)) (cconj (csumN n (l Q)))))).
  { transitivity (csumN n (fun q => cadd (cmul (cmul (l P q) (cconj (l Q q))) (if Nat.eqb k k' then A else c0))
        (cmul (l P q) (cmul Z (cconj (csumN n (l Q))))))).
    - apply csumN_ext. intros q Hq. rewrite csumN_add. f_equal.
      + rewrite (csumN_single _ _ q Hq); [rewrite Nat.eqb_refl; reflexivity|].
        intros q' _ NE. apply not_eq_sym, Nat.eqb_neq in NE. rewrite NE. cbn [andb]. ring.
      + rewrite csumN_mul_l, <- csumN_conj. ring.
    - rewrite csumN_add. f_equal. rewrite csumN_mul_r. ring. }
  rewrite csumN_mul_r, (SR P Q) by (apply B2; assumption). fold n. set (RR := csumN n (fun k0 => cmul (l P k0) (cconj (l Q k0)))).
  assert (PW : nth k (td_powers t) 0 = nth k (if pf_los p then tl (linear_powers p) else linear_powers p) 0 / total_power p).
  { rewrite (sh_powers _ _ _ _ S). unfold diffuse_powers.
    replace 0 with (0 / total_power p) at 1 by (unfold Rdiv; ring).
    apply (map_nth (fun x => x / total_power p)). }
  unfold A, Z. rewrite PW. rewrite (sh_los_power _ _ _ _ S). unfold specular_power.
  destruct (Nat.eqb k k'), (pf_los p), (Nat.eqb k 0), (Nat.eqb k' 0); cbn [andb]; ring.
Qed.

(* a LoS model with two correlated receive antennas: the specular part reaches the second antenna amplified *)
Definition los_args : tdl_args :=
  TdlArgs "D" 1e-7 2e9 8 0.5 0 None 2 1 (Some tx_example) None None 600000 45.

Lemma C72_los_refuted_l : exists chol a t p Rm E,
  tdl_init chol a = Ok t /\ documented_profile (ta_model a) = Some p /\ ta_spatial a = Some Rm /\
  (exists l, chol (ta_rx a * ta_tx a)%nat Rm = Some l /\ square_root (ta_rx a * ta_tx a) Rm l /\ forall i j, (i < j)%nat -> l i j = c0) /\
  phase_mean (ta_rx a) (ta_tx a) (length (tap_powers p)) (ta_sinusoids a) E /\
  Rm 0%nat 0%nat = c1 /\ Rm 1%nat 1%nat = c1 /\
  forall fs w th, exists H : phases -> R -> nat -> nat -> nat -> nat -> cplx,
    (forall x z, tdl_call t fs (TdlDraws w th x z) = Ok (H x z, tdl_delays t)) /\
    forall i, exists x,
      correlation E (fun x z => H x z 0 0 0 i)%nat (fun x z => H x z 0 0 0 i)%nat = creal (nth 0 (tap_powers p) 0 / total_power p) /\
      correlation E (fun x z => H x z 1 0 0 i)%nat (fun x z => H x z 1 0 0 i)%nat = creal x /\
      1.7 * (nth 0 (tap_powers p) 0 / total_power p) < x.
Proof.
  assert (D : documented_profile "D" = Some (Profile true true [(0, -0.284); (0, -11.991); (0.5596, -9.887); (7.3340, -16.771)])) by reflexivity.
  set (p := Profile _ _ _) in D.
  destruct (C54_constructs_l chol_example los_args p D) as [t I]; cbn [los_args ta_height ta_elev ta_max_speed ta_spatial ta_rx_corr ta_tx_corr];
    [lra|lra|exact Logic.I|intros; eexists; reflexivity|discriminate|discriminate|].
  exists chol_example, los_args, t, p, tx_example, (grid_mean 2 1 (length (tap_powers p)) 8).
  split; [exact I|]. split; [exact D|]. split; [reflexivity|]. split.
  { eexists. split; [reflexivity|]. apply chol_example_ok. reflexivity. }
  split; [apply phase_mean_exists_l|]. split; [reflexivity|]. split; [reflexivity|]. intros fs w th.
  destruct (C72_law_l chol_example los_args t p (grid_mean 2 1 (length (tap_powers p)) 8) fs w th tx_example) as (H & l & El & HC & HV);
    [intros l E; apply (chol_example_ok l E)|exact I|exact D|reflexivity|cbn; lia|apply phase_mean_exists_l|].
  exists H. split; [exact HC|]. intros i.
  pose proof (init_shape _ _ _ _ I D) as S. pose proof (total_pos p (sh_rows _ _ _ _ S)) as T.
  set (sp := Rpower 10 (-0.284 / 10)). set (df := Rpower 10 (-11.991 / 10)).
  assert (LP : linear_powers p = sp :: df :: map (fun r => Rpower 10 (snd r / 10)) [(0.5596, -9.887); (7.3340, -16.771)]) by reflexivity.
  assert (TP : nth 0 (tap_powers p) 0 = sp + df) by reflexivity.
  assert (LT : (0 < length (tap_powers p))%nat) by (cbn; lia).
  injection El as El.
  assert (SQ : sqrt 0.75 * sqrt 0.75 = 0.75) by (apply sqrt_sqrt; lra).
  assert (SB : 0.866 < sqrt 0.75).
  { rewrite <- (sqrt_Rsqr 0.866) by lra. apply sqrt_lt_1; unfold Rsqr; lra. }
  assert (P1 : 0 < sp) by apply exp_pos. assert (P2 : 0 < df) by apply exp_pos.
  assert (P3 : 10 * df < sp).
  { unfold df, sp. replace (-0.284 / 10) with (1 + -10.284 / 10) by lra. rewrite Rpower_plus, Rpower_1 by lra.
    apply Rmult_lt_compat_l; [lra|]. apply Rpower_lt; lra. }
  set (y := sqrt 0.75) in *.
  exists (df / total_power p + sp / total_power p * ((0.5 + y) * (0.5 + y))). split; [|split].
  - rewrite (HV 0 0 0 0 0 0 i i)%nat by (cbn; try lia; exact LT).
    replace (INR i / fs - INR i / fs) with 0 by ring. rewrite auto_zero by (cbn; lia).
    rewrite LP, TP, <- El. cbn [pf_los p tl hd nth Nat.eqb andb los_args ta_rx ta_tx ta_aoa Nat.mul Nat.add].
    replace (w * 0 * cos (0.5)) with 0 by ring. rewrite cexpi_0.
    unfold csumN, csum. cbn [seq map fold_right]. unfold tx_example. cbn [Nat.eqb]. apply cplx_eq; cbn; unfold Rdiv; ring.
  - rewrite (HV 1 0 1 0 0 0 i i)%nat by (cbn; try lia; exact LT).
    replace (INR i / fs - INR i / fs) with 0 by ring. rewrite auto_zero by (cbn; lia).
    rewrite LP, <- El. cbn [pf_los p tl hd nth Nat.eqb andb los_args ta_rx ta_tx ta_aoa Nat.mul Nat.add].
    replace (w * 0 * cos (0.5)) with 0 by ring. rewrite cexpi_0.
    unfold csumN, csum. cbn [seq map fold_right]. unfold tx_example. cbn [Nat.eqb]. fold y. generalize y. intros y'.
    apply cplx_eq; cbn; unfold Rdiv; ring.
  - rewrite TP. unfold Rdiv. generalize (Rinv_0_lt_compat _ T). generalize (/ total_power p). intros q Hq.
    assert (Q1 : 0 < q * sp) by nra. assert (Q2 : 10 * (q * df) < q * sp) by nra.
    assert (Y : 1.86 < (0.5 + y) * (0.5 + y)) by nra.
    assert (Y2 : 1.86 * (sp * q) < sp * q * ((0.5 + y) * (0.5 + y))) by nra. nra.
Qed.
