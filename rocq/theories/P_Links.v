(* Properties of the tapped and clustered delay lines: C54, C55, C71, C72, C74, C75. *)
From Coq Require Import Reals String List Bool Arith Lia Lra ZArith.
From Verif Require Import M_Base L_Base M_Json D_Links M_Geometry M_Cplx M_Convert M_Links S_Links L_Tdl L_TdlCov L_TdlEx L_TdlLos L_TdlSplit L_TdlDoppler L_TdlSpread L_Cdl.
Import ListNotations.
Open Scope string_scope.
Open Scope list_scope.
Open Scope R_scope.

(* C54: the mean tap powers are the documented ones normalised to sum 1, the delays the documented ones, scaled by the delay spread exactly for the scalable models. *)
Theorem C54_profile :
  forall chol a t p,
  tdl_init chol a = Ok t -> documented_profile (ta_model a) = Some p ->
  tdl_mean_powers t = map (fun x => x / total_power p) (tap_powers p) /\
  Rsum (tdl_mean_powers t) = 1 /\ Forall (fun x => 0 < x) (tdl_mean_powers t) /\
  tdl_delays t = map (fun d => d * (if pf_scalable p then ta_ds a else 1e-9)) (tap_delays p) /\
  td_num t = Z.of_nat (length (tdl_mean_powers t)) /\ length (tdl_delays t) = length (tdl_mean_powers t).
Proof. exact C54_profile_l. Qed.
Print Assumptions C54_profile.

(* C54: LoS models report the documented specular power and K-factor; the others reject the request. *)
Theorem C54_ricean :
  forall chol a t p,
  tdl_init chol a = Ok t -> documented_profile (ta_model a) = Some p ->
  (pf_los p = true ->
     exists s d rest, linear_powers p = s :: d :: rest /\
       tdl_mean_power_los t = Ok (s / total_power p) /\ tdl_k_factor t = Ok (s / d) /\
       nth 0 (tdl_mean_powers t) 0 = (s + d) / total_power p) /\
  (pf_los p = false -> exists m1 m2, tdl_mean_power_los t = Err (AssertionError m1) /\ tdl_k_factor t = Err (AssertionError m2)).
Proof. exact C54_ricean_l. Qed.
Print Assumptions C54_ricean.

(* C54: every documented model constructs. *)
Theorem C54_constructs :
  forall chol a p,
  documented_profile (ta_model a) = Some p -> 160000 <= ta_height a -> 0 <= ta_elev a <= 90 ->
  (match ta_max_speed a with None => True | Some v => ta_min_speed a <= v end) ->
  (forall m, ta_spatial a = Some m -> exists l, chol (ta_rx a * ta_tx a)%nat m = Some l) ->
  (forall m, ta_rx_corr a = Some m -> exists l, chol (ta_rx a) m = Some l) ->
  (forall m, ta_tx_corr a = Some m -> exists l, chol (ta_tx a) m = Some l) ->
  exists t, tdl_init chol a = Ok t.
Proof. exact C54_constructs_l. Qed.
Print Assumptions C54_constructs.

(* C54: every other name is rejected. *)
Theorem C54_rejected :
  forall chol a,
  ~ In (ta_model a) ["A"; "B"; "C"; "D"; "E"; "A30"; "B100"; "C300"] ->
  exists m, tdl_init chol a = Err (AssertionError m).
Proof. exact C54_rejected_l. Qed.
Print Assumptions C54_rejected.

(* C54: the name E passes the check but cannot be constructed. *)
Theorem C54_E_refuted :
  forall chol a,
  ta_model a = "E" -> 160000 <= ta_height a -> 0 <= ta_elev a <= 90 ->
  tdl_init chol a = Err (UnboundLocalError "parameters_fname").
Proof. exact C54_E_l. Qed.
Print Assumptions C54_E_refuted.

(* C54: after any sequence of assignments to the delay spread the scalable models use the last value and the fixed ones ignore it; the coefficients of every call are those before the assignments. *)
Theorem C54_delay_spread_setter :
  forall chol a t p l,
  tdl_init chol a = Ok t -> documented_profile (ta_model a) = Some p ->
  let t' := fold_left tdl_set_ds l t in
  tdl_mean_powers t' = tdl_mean_powers t /\
  tdl_delays t' = map (fun d => d * (if pf_scalable p then last l (ta_ds a) else 1e-9)) (tap_delays p) /\
  (pf_scalable p = false -> td_ds t' = td_ds t) /\
  forall fs d, (h <- tdl_call t' fs d ;; Ok (fst h)) = (h <- tdl_call t fs d ;; Ok (fst h)).
Proof. exact C54_setter_l. Qed.
Print Assumptions C54_delay_spread_setter.

(* C54: over the random phases, every coefficient of tap k has the documented mean power, the autocorrelation is that of the scattered sum plus, on the first LoS tap, the specular phasor, and different taps and antenna pairs are uncorrelated. *)
Theorem C54_tap_statistics :
  forall chol a t p E fs w th,
  tdl_init chol a = Ok t -> documented_profile (ta_model a) = Some p ->
  ta_spatial a = None -> ta_rx_corr a = None -> ta_tx_corr a = None -> (0 < ta_sinusoids a)%nat ->
  phase_mean (ta_rx a) (ta_tx a) (length (tap_powers p)) (ta_sinusoids a) E ->
  exists H : phases -> R -> nat -> nat -> nat -> nat -> cplx,
    (forall x z, tdl_call t fs (TdlDraws w th x z) = Ok (H x z, tdl_delays t)) /\
    (forall r s k i, (r < ta_rx a)%nat -> (s < ta_tx a)%nat -> (k < length (tap_powers p))%nat ->
       correlation E (fun x z => H x z r s k i) (fun x z => H x z r s k i) = creal (nth k (tap_powers p) 0 / total_power p)) /\
    (forall r s k i j, (r < ta_rx a)%nat -> (s < ta_tx a)%nat -> (k < length (tap_powers p))%nat -> pf_los p = false \/ (0 < k)%nat ->
       correlation E (fun x z => H x z r s k i) (fun x z => H x z r s k j) =
       cmul (creal (nth k (tap_powers p) 0 / total_power p)) (scatter_autocorrelation (ta_sinusoids a) w (th k) (INR i / fs - INR j / fs))) /\
    (forall r s i j, (r < ta_rx a)%nat -> (s < ta_tx a)%nat -> pf_los p = true ->
       exists sp df rest, linear_powers p = sp :: df :: rest /\
       correlation E (fun x z => H x z r s 0%nat i) (fun x z => H x z r s 0%nat j) =
       cadd (cmul (creal (df / total_power p)) (scatter_autocorrelation (ta_sinusoids a) w (th 0%nat) (INR i / fs - INR j / fs)))
            (cmul (creal (sp / total_power p)) (cexpi (w * (INR i / fs - INR j / fs) * cos (ta_aoa a))))) /\
    (forall r s k i r' s' k' j, (r < ta_rx a)%nat -> (s < ta_tx a)%nat -> (k < length (tap_powers p))%nat ->
       (r' < ta_rx a)%nat -> (s' < ta_tx a)%nat -> (k' < length (tap_powers p))%nat ->
       (r, s, k) <> (r', s', k') -> pf_los p = false \/ (0 < k)%nat \/ (0 < k')%nat ->
       correlation E (fun x z => H x z r s k i) (fun x z => H x z r' s' k' j) = c0).
Proof. exact C54_moments_l. Qed.
Print Assumptions C54_tap_statistics.

(* a TDL-D link with 2 x 2 antennas at 600 km: meets the hypotheses of the C54, C71, C72, C74 theorems *)
Definition tdl_example_args : tdl_args := TdlArgs "D" 1e-7 2e9 8 0.5 0 (Some 3) 2 2 None None None 600000 45.
Example tdl_example : exists t p, tdl_init chol_example tdl_example_args = Ok t /\ documented_profile "D" = Some p /\
  pf_los p = true /\ length (tdl_mean_powers t) = 3%nat /\ 0 <= ta_ds tdl_example_args /\ 0 < ta_fc tdl_example_args /\ ta_elev tdl_example_args < 90 /\
  phase_mean 2 2 (length (tap_powers p)) 8 (grid_mean 2 2 (length (tap_powers p)) 8).
Proof.
  destruct (C54_constructs_l chol_example tdl_example_args _ eq_refl) as [t I]; cbn; try lra; try discriminate.
  exists t. eexists. split; [exact I|]. split; [reflexivity|]. split; [reflexivity|].
  destruct (C54_profile_l _ _ _ _ I eq_refl) as (-> & _). split; [reflexivity|]. do 3 (split; [lra|]). apply phase_mean_exists_l.
Qed.

(* C71: the maximum angular Doppler is the terminal's speed term plus 1/3600 of the satellite's Doppler frequency. *)
Theorem C71_doppler_range :
  forall chol a t p,
  tdl_init chol a = Ok t -> documented_profile (ta_model a) = Some p ->
  let vmax := match ta_max_speed a with None => ta_min_speed a | Some v => v end in
  td_min_doppler t = 2 * PI * (ta_min_speed a / light) * ta_fc a + satellite_doppler (ta_height a) (ta_elev a) (ta_fc a) / 3600 /\
  td_max_doppler t = 2 * PI * (vmax / light) * ta_fc a + satellite_doppler (ta_height a) (ta_elev a) (ta_fc a) / 3600 /\
  td_max_doppler t - td_min_doppler t = 2 * PI * ((vmax - ta_min_speed a) / light) * ta_fc a /\
  (0 <= ta_fc a -> td_min_doppler t <= td_max_doppler t).
Proof. exact C71_exact_l. Qed.
Print Assumptions C71_doppler_range.

(* C71: the satellite's Doppler is lost: the range ends below the speed term plus even the satellite's Doppler in Hz. *)
Theorem C71_satellite_doppler_refuted :
  forall chol a t p,
  tdl_init chol a = Ok t -> documented_profile (ta_model a) = Some p ->
  0 < ta_fc a -> ta_elev a < 90 ->
  let vmax := match ta_max_speed a with None => ta_min_speed a | Some v => v end in
  td_max_doppler t < 2 * PI * (vmax / light) * ta_fc a + satellite_doppler (ta_height a) (ta_elev a) (ta_fc a).
Proof. exact C71_satellite_refuted_l. Qed.
Print Assumptions C71_satellite_doppler_refuted.

(* C72: with a full correlation matrix, coefficients of antenna pairs have exactly the requested correlation. *)
Theorem C72_full_correlation :
  forall chol a t p E fs w th Rm,
  (forall l, chol (ta_rx a * ta_tx a)%nat Rm = Some l -> square_root (ta_rx a * ta_tx a) Rm l) ->
  tdl_init chol a = Ok t -> documented_profile (ta_model a) = Some p ->
  ta_spatial a = Some Rm -> (0 < ta_sinusoids a)%nat ->
  phase_mean (ta_rx a) (ta_tx a) (length (tap_powers p)) (ta_sinusoids a) E ->
  exists H : phases -> R -> nat -> nat -> nat -> nat -> cplx,
    (forall x z, tdl_call t fs (TdlDraws w th x z) = Ok (H x z, tdl_delays t)) /\
    forall r s r' s' k i j, (r < ta_rx a)%nat -> (s < ta_tx a)%nat -> (r' < ta_rx a)%nat -> (s' < ta_tx a)%nat ->
      (k < length (tap_powers p))%nat -> pf_los p = false \/ (0 < k)%nat ->
      correlation E (fun x z => H x z r s k i) (fun x z => H x z r' s' k j) =
      cmul (cmul (creal (nth k (tap_powers p) 0 / total_power p)) (scatter_autocorrelation (ta_sinusoids a) w (th k) (INR i / fs - INR j / fs)))
           (Rm (r * ta_tx a + s)%nat (r' * ta_tx a + s')%nat).
Proof. exact C72_full_l. Qed.
Print Assumptions C72_full_correlation.

(* C72: any two taps of a model with a full correlation matrix; different taps are uncorrelated, and the specular part of the first LoS tap is filtered by the square root as well. *)
Theorem C72_correlation_law :
  forall chol a t p E fs w th Rm,
  (forall l, chol (ta_rx a * ta_tx a)%nat Rm = Some l -> square_root (ta_rx a * ta_tx a) Rm l) ->
  tdl_init chol a = Ok t -> documented_profile (ta_model a) = Some p ->
  ta_spatial a = Some Rm -> (0 < ta_sinusoids a)%nat ->
  phase_mean (ta_rx a) (ta_tx a) (length (tap_powers p)) (ta_sinusoids a) E ->
  exists (H : phases -> R -> nat -> nat -> nat -> nat -> cplx) l,
    chol (ta_rx a * ta_tx a)%nat Rm = Some l /\
    (forall x z, tdl_call t fs (TdlDraws w th x z) = Ok (H x z, tdl_delays t)) /\
    forall r s r' s' k k' i j, (r < ta_rx a)%nat -> (s < ta_tx a)%nat -> (r' < ta_rx a)%nat -> (s' < ta_tx a)%nat ->
      (k < length (tap_powers p))%nat -> (k' < length (tap_powers p))%nat ->
      let n := (ta_rx a * ta_tx a)%nat in
      let P := (r * ta_tx a + s)%nat in
      let Q := (r' * ta_tx a + s')%nat in
      correlation E (fun x z => H x z r s k i) (fun x z => H x z r' s' k' j) =
      cadd (if Nat.eqb k k'
            then cmul (cmul (creal (nth k (if pf_los p then tl (linear_powers p) else linear_powers p) 0 / total_power p))
                            (scatter_autocorrelation (ta_sinusoids a) w (th k) (INR i / fs - INR j / fs))) (Rm P Q)
            else c0)
           (if pf_los p && (Nat.eqb k 0 && Nat.eqb k' 0)
            then cmul (cmul (creal (hd 0 (linear_powers p) / total_power p)) (cexpi (w * (INR i / fs - INR j / fs) * cos (ta_aoa a))))
                      (cmul (csumN n (l P)) (cconj (csumN n (l Q))))
            else c0).
Proof. exact C72_law_l. Qed.
Print Assumptions C72_correlation_law.

(* C72 fails on the first tap of a LoS model: with a matrix of unit diagonal the second antenna receives more than 1.7 times the documented tap power. *)
Theorem C72_los_tap_refuted :
  exists chol a t p Rm E,
  tdl_init chol a = Ok t /\ documented_profile (ta_model a) = Some p /\ ta_spatial a = Some Rm /\
  (exists l, chol (ta_rx a * ta_tx a)%nat Rm = Some l /\ square_root (ta_rx a * ta_tx a) Rm l /\ forall i j, (i < j)%nat -> l i j = c0) /\
  phase_mean (ta_rx a) (ta_tx a) (length (tap_powers p)) (ta_sinusoids a) E /\
  Rm 0%nat 0%nat = c1 /\ Rm 1%nat 1%nat = c1 /\
  forall fs w th, exists H : phases -> R -> nat -> nat -> nat -> nat -> cplx,
    (forall x z, tdl_call t fs (TdlDraws w th x z) = Ok (H x z, tdl_delays t)) /\
    forall i, exists x,
      correlation E (fun x z => H x z 0 0 0 i)%nat (fun x z => H x z 0 0 0 i)%nat = creal (nth 0 (tap_powers p) 0 / total_power p) /\
      correlation E (fun x z => H x z 1 0 0 i)%nat (fun x z => H x z 1 0 0 i)%nat = creal x /\
      1.7 * (nth 0 (tap_powers p) 0 / total_power p) < x.
Proof. exact C72_los_refuted_l. Qed.
Print Assumptions C72_los_tap_refuted.

(* C72: with a receive correlation matrix, coefficients have exactly the requested correlation on the receive side. *)
Theorem C72_receive_correlation :
  forall chol a t p E fs w th R_rx,
  (forall l, chol (ta_rx a) R_rx = Some l -> square_root (ta_rx a) R_rx l) ->
  tdl_init chol a = Ok t -> documented_profile (ta_model a) = Some p ->
  ta_spatial a = None -> ta_rx_corr a = Some R_rx -> ta_tx_corr a = None -> (0 < ta_sinusoids a)%nat ->
  phase_mean (ta_rx a) (ta_tx a) (length (tap_powers p)) (ta_sinusoids a) E ->
  exists H : phases -> R -> nat -> nat -> nat -> nat -> cplx,
    (forall x z, tdl_call t fs (TdlDraws w th x z) = Ok (H x z, tdl_delays t)) /\
    forall r s r' s' k i j, (r < ta_rx a)%nat -> (s < ta_tx a)%nat -> (r' < ta_rx a)%nat -> (s' < ta_tx a)%nat ->
      (k < length (tap_powers p))%nat -> pf_los p = false \/ (0 < k)%nat ->
      correlation E (fun x z => H x z r s k i) (fun x z => H x z r' s' k j) =
      cmul (cmul (creal (nth k (tap_powers p) 0 / total_power p)) (scatter_autocorrelation (ta_sinusoids a) w (th k) (INR i / fs - INR j / fs)))
           (if Nat.eqb s s' then R_rx r r' else c0).
Proof. exact C72_rx_l. Qed.
Print Assumptions C72_receive_correlation.

(* C72: with a transmit correlation matrix of unit diagonal, the antennas get powers 1.25 and 0.75. *)
Theorem C72_transmit_correlation_refuted :
  exists chol a t p R_tx E,
  tdl_init chol a = Ok t /\ documented_profile (ta_model a) = Some p /\ ta_spatial a = None /\ ta_rx_corr a = None /\
  ta_tx_corr a = Some R_tx /\ (exists l, chol (ta_tx a) R_tx = Some l /\ square_root (ta_tx a) R_tx l /\ forall i j, (i < j)%nat -> l i j = c0) /\
  phase_mean (ta_rx a) (ta_tx a) (length (tap_powers p)) (ta_sinusoids a) E /\
  forall fs w th, exists H : phases -> R -> nat -> nat -> nat -> nat -> cplx,
    (forall x z, tdl_call t fs (TdlDraws w th x z) = Ok (H x z, tdl_delays t)) /\
    forall k i, (k < length (tap_powers p))%nat ->
      let P := nth k (tap_powers p) 0 / total_power p in
      correlation E (fun x z => H x z 0 0 k i)%nat (fun x z => H x z 0 0 k i)%nat = creal (1.25 * P) /\
      correlation E (fun x z => H x z 0 1 k i)%nat (fun x z => H x z 0 1 k i)%nat = creal (0.75 * P) /\
      R_tx 0%nat 0%nat = c1 /\ R_tx 1%nat 1%nat = c1 /\ 0 < P.
Proof. exact C72_tx_refuted_l. Qed.
Print Assumptions C72_transmit_correlation_refuted.

(* C72: any two taps of a model with one-sided matrices, in terms of their square roots Lr and Lt (the identity where no matrix is given): the code multiplies by Lr from the left and by Lt, not its transpose, from the right, and filters the specular part of the first LoS tap as well. *)
Theorem C72_split_correlation_law :
  forall chol a t p E fs w th,
  tdl_init chol a = Ok t -> documented_profile (ta_model a) = Some p ->
  ta_spatial a = None -> (0 < ta_sinusoids a)%nat ->
  phase_mean (ta_rx a) (ta_tx a) (length (tap_powers p)) (ta_sinusoids a) E ->
  exists (H : phases -> R -> nat -> nat -> nat -> nat -> cplx) (Lr Lt : nat -> nat -> cplx),
    (match ta_rx_corr a with None => forall i j, Lr i j = if Nat.eqb i j then c1 else c0 | Some m => chol (ta_rx a) m = Some Lr end) /\
    (match ta_tx_corr a with None => forall i j, Lt i j = if Nat.eqb i j then c1 else c0 | Some m => chol (ta_tx a) m = Some Lt end) /\
    (forall x z, tdl_call t fs (TdlDraws w th x z) = Ok (H x z, tdl_delays t)) /\
    forall r s r' s' k k' i j, (r < ta_rx a)%nat -> (s < ta_tx a)%nat -> (r' < ta_rx a)%nat -> (s' < ta_tx a)%nat ->
      (k < length (tap_powers p))%nat -> (k' < length (tap_powers p))%nat ->
      correlation E (fun x z => H x z r s k i) (fun x z => H x z r' s' k' j) =
      cadd (if Nat.eqb k k'
            then cmul (cmul (creal (nth k (if pf_los p then tl (linear_powers p) else linear_powers p) 0 / total_power p))
                            (scatter_autocorrelation (ta_sinusoids a) w (th k) (INR i / fs - INR j / fs)))
                      (cmul (csumN (ta_rx a) (fun q => cmul (Lr r q) (cconj (Lr r' q)))) (csumN (ta_tx a) (fun q => cmul (Lt q s) (cconj (Lt q s')))))
            else c0)
           (if pf_los p && (Nat.eqb k 0 && Nat.eqb k' 0)
            then cmul (cmul (creal (hd 0 (linear_powers p) / total_power p)) (cexpi (w * (INR i / fs - INR j / fs) * cos (ta_aoa a))))
                      (cmul (cmul (csumN (ta_rx a) (Lr r)) (cconj (csumN (ta_rx a) (Lr r'))))
                            (cmul (csumN (ta_tx a) (fun q => Lt q s)) (cconj (csumN (ta_tx a) (fun q => Lt q s')))))
            else c0).
Proof. exact C72_split_law_l. Qed.
Print Assumptions C72_split_correlation_law.

(* a receive-correlated and a fully correlated two-antenna link *)
Example correlated_example :
  (exists t, tdl_init chol_example (TdlArgs "A" 1e-7 2e9 8 0.5 0 None 2 1 None (Some tx_example) None 600000 45) = Ok t) /\
  (exists t, tdl_init chol_example (TdlArgs "A" 1e-7 2e9 8 0.5 0 None 2 1 (Some tx_example) None None 600000 45) = Ok t) /\
  (forall l, chol_example 2 tx_example = Some l -> square_root 2 tx_example l).
Proof.
  split; [|split].
  - eapply C54_constructs_l; [reflexivity|..]; cbn; try lra; try discriminate; try exact I; intros; eexists; reflexivity.
  - eapply C54_constructs_l; [reflexivity|..]; cbn; try lra; try discriminate; try exact I; intros; eexists; reflexivity.
  - intros l E. apply (chol_example_ok l E).
Qed.

(* C74: the RMS delay spread of a scalable model is the requested one within 0.01 percent. *)
Theorem C74_scalable_spread :
  forall chol a t,
  tdl_init chol a = Ok t -> In (ta_model a) ["A"; "B"; "C"; "D"] -> 0 <= ta_ds a ->
  Rabs (rms_delay_spread (tdl_mean_powers t) (tdl_delays t) - ta_ds a) <= 1e-4 * ta_ds a.
Proof. exact C74_scalable_l. Qed.
Print Assumptions C74_scalable_spread.

(* C74: the RMS delay spread of a fixed model is the one in its name within 0.5 percent. *)
Theorem C74_fixed_spread :
  forall chol a t m,
  tdl_init chol a = Ok t -> ta_model a = m ->
  (m = "A30" -> Rabs (rms_delay_spread (tdl_mean_powers t) (tdl_delays t) - 30e-9) <= 0.005 * 30e-9) /\
  (m = "B100" -> Rabs (rms_delay_spread (tdl_mean_powers t) (tdl_delays t) - 100e-9) <= 0.005 * 100e-9) /\
  (m = "C300" -> Rabs (rms_delay_spread (tdl_mean_powers t) (tdl_delays t) - 300e-9) <= 0.005 * 300e-9).
Proof. exact C74_fixed_l. Qed.
Print Assumptions C74_fixed_spread.

(* C55: construction succeeds exactly for the documented models, link directions and ordered speeds. *)
Theorem C55_constructs :
  forall a,
  (exists c, cdl_init a = Ok c) <->
  In (ca_model a) ["A"; "B"; "C"; "D"] /\ In (ca_direction a) ["uplink"; "downlink"] /\
  match ca_max_speed a with None => True | Some v => ca_min_speed a <= v end.
Proof. exact C55_constructs_l. Qed.
Print Assumptions C55_constructs.

(* C55: everything else is rejected by an assertion. *)
Theorem C55_rejected :
  forall a,
  ~ (In (ca_model a) ["A"; "B"; "C"; "D"] /\ In (ca_direction a) ["uplink"; "downlink"] /\
     match ca_max_speed a with None => True | Some v => ca_min_speed a <= v end) ->
  exists m, cdl_init a = Err (AssertionError m).
Proof. exact C55_rejected_l. Qed.
Print Assumptions C55_rejected.

(* C55: cluster powers are the documented ones normalised to sum 1, delays the documented ones times the delay spread, the K-factor the documented one. *)
Theorem C55_profile :
  forall a c p,
  cdl_init a = Ok c -> documented_profile (ca_model a) = Some p ->
  cdl_powers c = map (fun x => x / total_power p) (tap_powers p) /\
  Rsum (cdl_powers c) = 1 /\ Forall (fun x => 0 < x) (cdl_powers c) /\
  cdl_delays c = map (fun d => d * ca_ds a) (tap_delays p) /\
  cl_num c = Z.of_nat (length (cdl_powers c)) /\ length (cdl_delays c) = length (cdl_powers c) /\
  (pf_los p = true -> exists s d rest, linear_powers p = s :: d :: rest /\ cdl_k_factor c = Ok (s / d)) /\
  (pf_los p = false -> exists m, cdl_k_factor c = Err (AssertionError m)).
Proof. exact C55_profile_l. Qed.
Print Assumptions C55_profile.

(* C55: every cluster has 20 rays with the documented centres, spreads and offsets at the ground end and a single direction at the satellite. *)
Theorem C55_rays :
  forall a c p g,
  cdl_init a = Ok c -> documented_profile (ca_model a) = Some p -> documented_angles (ca_model a) = Some g ->
  let azimuths := if String.eqb (ca_direction a) "downlink" then cl_aoa c else cl_aod c in     (* at the ground end *)
  let zeniths := if String.eqb (ca_direction a) "downlink" then cl_zoa c else cl_zod c in
  let sat_azimuths := if String.eqb (ca_direction a) "downlink" then cl_aod c else cl_aoa c in (* at the satellite *)
  let sat_zeniths := if String.eqb (ca_direction a) "downlink" then cl_zod c else cl_zoa c in
  azimuths = map (fun x => cluster_rays x (cd_asa g)) (clusters_of (pf_los p) (cd_aoa g)) /\
  zeniths = map (fun x => cluster_rays x (cd_zsa g)) (clusters_of (pf_los p) (cd_zoa g)) /\
  sat_azimuths = map (fun _ => repeat 0 20) (cdl_powers c) /\
  sat_zeniths = map (fun _ => repeat (140 * (PI / 180)) 20) (cdl_powers c) /\
  length azimuths = length (cdl_powers c) /\ length zeniths = length (cdl_powers c) /\
  cl_xpr c = Rpower 10 (cd_xpr g / 10) /\
  cl_moving_rx c = String.eqb (ca_direction a) "downlink".
Proof. exact C55_rays_l. Qed.
Print Assumptions C55_rays.

(* C55: the rays of a cluster average to its centre. *)
Theorem C55_ray_mean :
  forall x c,
  Rsum (cluster_rays x c) = 20 * (x * (PI / 180)) /\ length (cluster_rays x c) = 20%nat.
Proof. exact cluster_rays_mean. Qed.
Print Assumptions C55_ray_mean.

(* C55: the uplink model is the downlink model with both ends exchanged. *)
Theorem C55_reciprocal :
  forall m ds vmin vmax d u,
  cdl_init (CdlArgs m ds "downlink" vmin vmax) = Ok d -> cdl_init (CdlArgs m ds "uplink" vmin vmax) = Ok u ->
  cl_aoa u = cl_aod d /\ cl_aod u = cl_aoa d /\ cl_zoa u = cl_zod d /\ cl_zod u = cl_zoa d /\
  cl_los_aoa u = cl_los_aod d /\ cl_los_aod u = cl_los_aoa d /\ cl_los_zoa u = cl_los_zod d /\ cl_los_zod u = cl_los_zoa d /\
  cl_moving_rx d = true /\ cl_moving_rx u = false /\
  cdl_powers u = cdl_powers d /\ cdl_delays u = cdl_delays d /\ cdl_k_factor u = cdl_k_factor d /\ cl_xpr u = cl_xpr d /\
  cl_min_speed u = cl_min_speed d /\ cl_max_speed u = cl_max_speed d.
Proof. exact C55_reciprocal_l. Qed.
Print Assumptions C55_reciprocal.

(* C55: the direct ray arrives opposite to its departure. *)
Theorem C55_direct_ray :
  forall a c,
  cdl_init a = Ok c -> cl_los c = true ->
  (cl_los_zoa c + cl_los_zod c = PI) /\ (cl_los_aoa c - cl_los_aod c = PI \/ cl_los_aoa c - cl_los_aod c = - PI).
Proof. exact C55_direct_l. Qed.
Print Assumptions C55_direct_ray.

(* C55: calling a CDL model always raises TypeError, because three arguments are not passed on. *)
Theorem C55_call_refuted :
  forall (A : Type) (c : cdl) batch steps fs (k : res A),
  cdl_call c batch steps fs k =
    Err (TypeError "missing required positional arguments: bs_height, elevation_angle, doppler_enabled").
Proof. exact C55_call_l. Qed.
Print Assumptions C55_call_refuted.

(* an uplink CDL-D model: constructs, three clusters, K above one *)
Example cdl_example : exists c p, cdl_init (CdlArgs "D" 1e-7 "uplink" 0 (Some 3)) = Ok c /\ documented_profile "D" = Some p /\ cl_los c = true /\
  length (cdl_powers c) = 3%nat /\ exists k, cdl_k_factor c = Ok k /\ 1 < k.
Proof.
  destruct (proj2 (C55_constructs_l (CdlArgs "D" 1e-7 "uplink" 0 (Some 3)))) as [c E]; [cbn; repeat split; [tauto|tauto|lra]|].
  exists c. eexists. split; [exact E|]. split; [reflexivity|].
  destruct tdl_example as (t & _ & T & _).
  destruct (C75_l _ _ _ _ _ T E eq_refl eq_refl) as (_ & _ & _ & L & K).
  pose proof (init_shape _ _ _ _ T eq_refl) as S. pose proof (sh_los _ _ _ _ S) as LT. cbn [pf_los] in LT. rewrite LT in *.
  split; [symmetry; exact L|]. destruct (C55_profile_l _ _ _ E eq_refl) as (-> & _). split; [reflexivity|].
  destruct (K eq_refl) as (k & _ & K2 & K3). exists k. split; assumption.
Qed.

(* C75: the tapped and the clustered delay line of one letter have the same powers, delays and K-factor. *)
Theorem C75_same_profile :
  forall chol a t b c,
  tdl_init chol a = Ok t -> cdl_init b = Ok c -> ta_model a = ca_model b -> ta_ds a = ca_ds b ->
  tdl_mean_powers t = cdl_powers c /\ tdl_delays t = cdl_delays c /\ td_num t = cl_num c /\ td_los t = cl_los c /\
  (td_los t = true -> exists k, tdl_k_factor t = Ok k /\ cdl_k_factor c = Ok k /\ 1 < k).
Proof. exact C75_l. Qed.
Print Assumptions C75_same_profile.
