(* Properties of the grids, conversions and correlation matrices: C49-C53, C73. *)
From Coq Require Import Reals String List Bool Arith Lia Lra ZArith.
From Verif Require Import M_Base L_Base M_Geometry M_Cplx L_Coeff M_Convert S_Convert L_Csum L_Grids L_Convert L_CorrMat.
Import ListNotations.
Open Scope R_scope.

(* C49: the i-th of n subcarriers is (i - floor(n/2)) times the spacing. *)
Theorem C49_subcarriers :
  forall n spacing,
  length (subcarrier_frequencies n spacing) = n /\
  forall i, (i < n)%nat -> nth i (subcarrier_frequencies n spacing) 0 = centred n i * spacing.
Proof. exact C49_sub. Qed.
Print Assumptions C49_subcarriers.

(* C49: the grid contains the carrier itself. *)
Theorem C49_zero_subcarrier :
  forall n spacing,
  (0 < n)%nat -> exists i, (i < n)%nat /\ nth i (subcarrier_frequencies n spacing) 1 = 0.
Proof. exact C49_sub_zero. Qed.
Print Assumptions C49_zero_subcarrier.

(* five subcarriers of 15 kHz *)
Example subcarriers_example : nth 0 (subcarrier_frequencies 5 15000) 0 = -30000 /\ nth 4 (subcarrier_frequencies 5 15000) 0 = 30000.
Proof.
  destruct (C49_sub 5 15000) as [_ P]. rewrite !P by lia. unfold centred. cbn. lra.
Qed.

(* C49: centred time and frequency grids with reciprocal steps. *)
Theorem C49_time_frequency :
  forall n duration,
  (0 < n)%nat -> duration <> 0 ->
  let '(t, f) := time_frequency_vector n duration in
  length t = n /\ length f = n /\
  forall i, (i < n)%nat ->
    nth i t 0 = centred n i * duration /\ nth i f 0 = centred n i / (duration * INR n).
Proof. exact C49_tf. Qed.
Print Assumptions C49_time_frequency.

(* C49: the recommended lags leave six samples on both sides of every delay, and not more than seven after the last. *)
Theorem C49_time_lags :
  forall W tau_max,
  0 <= W ->
  let '(l_min, l_max) := time_lag W tau_max in
  l_min = (-6)%Z /\
  (forall tau, 0 <= tau <= tau_max -> IZR l_min + 6 <= W * tau <= IZR l_max - 6) /\
  IZR l_max - 7 < W * tau_max.
Proof. exact C49_lag. Qed.
Print Assumptions C49_time_lags.

(* C50: the response is the sum of the path coefficients turned by frequency times delay, for delays per link or per antenna pair. *)
Theorem C50_frequency_response :
  forall D fr a tau b r ra t ta s k,
  (k < length fr)%nat ->
  cir_to_ofdm D fr a tau false b r ra t ta s k =
  csumN (d_path D) (fun p => cmul (a b r ra t ta p s) (turn (nth k fr 0 * path_delay tau b r ra t ta p))).
Proof. exact C50_formula. Qed.
Print Assumptions C50_frequency_response.

(* C50: the response is linear in the coefficients. *)
Theorem C50_linear :
  forall D fr a a' z tau b r ra t ta s k,
  cir_to_ofdm D fr (fun b r ra t ta p s => cadd (a b r ra t ta p s) (cmul z (a' b r ra t ta p s))) tau false b r ra t ta s k =
  cadd (cir_to_ofdm D fr a tau false b r ra t ta s k) (cmul z (cir_to_ofdm D fr a' tau false b r ra t ta s k)).
Proof. exact C50_linear. Qed.
Print Assumptions C50_linear.

(* C50: a common delay only turns the phase, proportionally to the frequency. *)
Theorem C50_delay_phase :
  forall D fr a tau delta b r ra t ta s k,
  (k < length fr)%nat ->
  cir_to_ofdm D fr a (later delta tau) false b r ra t ta s k =
  cmul (turn (nth k fr 0 * delta)) (cir_to_ofdm D fr a tau false b r ra t ta s k).
Proof. exact C50_shift. Qed.
Print Assumptions C50_delay_phase.

(* C50: with normalisation the energy of a link equals its number of resource elements, unless the link is silent; the response is only scaled. *)
Theorem C50_normalised :
  forall D fr a tau b r t,
  (0 < d_rxa D)%nat -> (0 < d_txa D)%nat -> (0 < d_time D)%nat -> (0 < length fr)%nat ->
  let h := cir_to_ofdm D fr a tau false in
  let g := cir_to_ofdm D fr a tau true in
  (energy (d_rxa D) (d_txa D) (d_time D) (length fr) (fun ra ta s k => g b r ra t ta s k) =
     INR (d_rxa D) * INR (d_txa D) * INR (d_time D) * INR (length fr) /\
   exists c, 0 < c /\ forall ra ta s k, g b r ra t ta s k = cmul (creal c) (h b r ra t ta s k)) \/
  (forall ra ta s k, (ra < d_rxa D)%nat -> (ta < d_txa D)%nat -> (s < d_time D)%nat -> (k < length fr)%nat ->
     h b r ra t ta s k = c0 /\ g b r ra t ta s k = c0).
Proof. exact C50_normal. Qed.
Print Assumptions C50_normalised.

(* a resource grid that is not silent, so the first alternative of the normalisation applies *)
Example normalised_example :
  let D := Dims 1 1 1 1 1 1 2 in
  let a : coeffs := fun _ _ _ _ _ _ _ => Cx 3 4 in
  energy 1 1 2 1 (fun ra ta s k => cir_to_ofdm D [0] a (Tau4 (fun _ _ _ _ => 1)) true 0%nat 0%nat ra 0%nat ta s k) = 2.
Proof.
  intros D a. destruct (C50_normal D [0] a (Tau4 (fun _ _ _ _ => 1)) 0%nat 0%nat 0%nat) as [[E _]|E]; try (cbn; lia).
  - etransitivity; [exact E|]. cbn. ring.
  - exfalso. destruct (E 0 0 0 0)%nat as [Z _]; try (cbn; lia). apply (f_equal re) in Z. revert Z.
    unfold cir_to_ofdm. cbn [d_path D]. rewrite csumN_S, csumN_0. cbn [nth a tau_at].
    rewrite Rmult_0_r, Rmult_0_l, cexpi_0. cbn. lra.
Qed.

(* C51: each tap is the sinc-weighted sum of the coefficients. *)
Theorem C51_taps :
  forall D W a tau l_min l_max b r ra t ta s k,
  (k < lags l_min l_max)%nat ->
  cir_to_time D W a tau l_min l_max false b r ra t ta s k =
  csumN (d_path D) (fun p => cmul (a b r ra t ta p s) (creal (sinc (IZR (l_min + Z.of_nat k) - W * path_delay tau b r ra t ta p)))).
Proof. exact C51_formula. Qed.
Print Assumptions C51_taps.

(* C51: a path delayed by a whole number of samples appears in exactly that tap. *)
Theorem C51_whole_lags :
  forall D W a tau l_min l_max b r ra t ta s k (lag : nat -> Z),
  (k < lags l_min l_max)%nat ->
  (forall p, (p < d_path D)%nat -> W * path_delay tau b r ra t ta p = IZR (lag p)) ->
  cir_to_time D W a tau l_min l_max false b r ra t ta s k =
  csumN (d_path D) (fun p => if Z.eqb (lag p) (l_min + Z.of_nat k) then a b r ra t ta p s else c0).
Proof. exact C51_whole. Qed.
Print Assumptions C51_whole_lags.

(* C51: with the recommended lags no such path is lost. *)
Theorem C51_window_covers :
  forall D W a tau tau_max b r ra t ta s (lag : nat -> Z),
  0 <= W ->
  (forall p, (p < d_path D)%nat -> 0 <= path_delay tau b r ra t ta p <= tau_max /\ W * path_delay tau b r ra t ta p = IZR (lag p)) ->
  let '(l_min, l_max) := time_lag W tau_max in
  csumN (lags l_min l_max) (fun k => cir_to_time D W a tau l_min l_max false b r ra t ta s k) =
  csumN (d_path D) (fun p => a b r ra t ta p s).
Proof. exact C51_cover. Qed.
Print Assumptions C51_window_covers.

(* C51: with normalisation the mean total tap energy of a link is 1, unless the link is silent. *)
Theorem C51_normalised :
  forall D W a tau l_min l_max b r t,
  (0 < d_rxa D)%nat -> (0 < d_txa D)%nat -> (0 < d_time D)%nat -> (l_min <= l_max)%Z ->
  let L := lags l_min l_max in
  let h := cir_to_time D W a tau l_min l_max false in
  let g := cir_to_time D W a tau l_min l_max true in
  (energy (d_rxa D) (d_txa D) (d_time D) L (fun ra ta s k => g b r ra t ta s k) =
     INR (d_rxa D) * INR (d_txa D) * INR (d_time D) /\
   exists c, 0 < c /\ forall ra ta s k, g b r ra t ta s k = cmul (creal c) (h b r ra t ta s k)) \/
  (forall ra ta s k, (ra < d_rxa D)%nat -> (ta < d_txa D)%nat -> (s < d_time D)%nat -> (k < L)%nat ->
     h b r ra t ta s k = c0 /\ g b r ra t ta s k = c0).
Proof. exact C51_normal. Qed.
Print Assumptions C51_normalised.

(* C52: one response per OFDM symbol, taken after the cyclic prefix, equal to the DFT of the taps at lags l_min, l_min + 1, ... and centred on the carrier. *)
Theorem C52_dft :
  forall h_t L g l_min,
  (0 < rg_fft g)%nat -> (L <= rg_fft g)%nat ->
  (forall row, In row h_t -> length row = L) -> ((rg_fft g + rg_cp g) * rg_symbols g <= length h_t)%nat ->
  exists out, time_to_ofdm h_t L g l_min = Ok out /\ length out = rg_symbols g /\
  forall s, (s < rg_symbols g)%nat ->
    length (nth s out []) = rg_fft g /\
    forall i, (i < rg_fft g)%nat ->
      nth i (nth s out []) c0 =
      csumN L (fun k => cmul (nth k (nth (rg_cp g + s * (rg_fft g + rg_cp g)) h_t []) c0)
                             (turn (centred (rg_fft g) i * IZR (l_min + Z.of_nat k) / INR (rg_fft g)))).
Proof. exact C52_l. Qed.
Print Assumptions C52_dft.

(* C52: more taps than subcarriers are rejected. *)
Theorem C52_too_many_taps :
  forall h_t L g l_min,
  (0 < rg_fft g)%nat -> (rg_fft g < L)%nat ->
  exists m, time_to_ofdm h_t L g l_min = Err (InvalidArgumentError m).
Proof. exact C52_err. Qed.
Print Assumptions C52_too_many_taps.

(* C73: for delays of whole samples inside the window, going through the taps gives the same OFDM channel as the direct conversion. *)
Theorem C73_conversions_agree :
  forall D g spacing a tau l_min l_max b r ra t ta (lag : nat -> Z),
  0 < spacing -> (0 < rg_fft g)%nat -> (lags l_min l_max <= rg_fft g)%nat ->
  ((rg_fft g + rg_cp g) * rg_symbols g <= d_time D)%nat ->
  let W := INR (rg_fft g) * spacing in
  (forall p, (p < d_path D)%nat -> (l_min <= lag p <= l_max)%Z /\ W * path_delay tau b r ra t ta p = IZR (lag p)) ->
  let L := lags l_min l_max in
  let taps := cir_to_time D W a tau l_min l_max false in
  let h_t := map (fun s => map (fun k => taps b r ra t ta s k) (seq 0 L)) (seq 0 (d_time D)) in
  exists out, time_to_ofdm h_t L g l_min = Ok out /\
  forall s i, (s < rg_symbols g)%nat -> (i < rg_fft g)%nat ->
    nth i (nth s out []) c0 =
    cir_to_ofdm D (subcarrier_frequencies (rg_fft g) spacing) a tau false b r ra t ta (rg_cp g + s * (rg_fft g + rg_cp g))%nat i.
Proof. exact C73_l. Qed.
Print Assumptions C73_conversions_agree.

(* Two paths, one and three samples late, four subcarriers: both conversions exist and agree. *)
Example conversions_example :
  let D := Dims 1 1 1 1 1 2 12 in
  let a : coeffs := fun _ _ _ _ _ p s => Cx (INR p + 1) (INR s) in
  let tau := Tau4 (fun _ _ _ p => (2 * INR p + 1) / (INR 4 * 15000)) in
  let g := RG 4 2 2 in
  exists out, time_to_ofdm
    (map (fun s => map (fun k => cir_to_time D (INR 4 * 15000) a tau 0%Z 3%Z false 0%nat 0%nat 0%nat 0%nat 0%nat s k) (seq 0 4)) (seq 0 12)) 4%nat g 0%Z = Ok out /\
  nth 2 (nth 1 out []) c0 = Cx 3 16.
Proof.
  intros D a tau g.
  destruct (C73_l D g 15000 a tau 0%Z 3%Z 0%nat 0%nat 0%nat 0%nat 0%nat (fun p => 2 * Z.of_nat p + 1)%Z) as (out & E & P);
    [lra|cbn; lia|cbn; lia|cbn; lia| |].
  { intros p Hp. cbn in Hp. split; [lia|]. cbn [path_delay tau]. rewrite plus_IZR, mult_IZR, <- INR_IZR_INZ. cbn [rg_fft g].
    replace (INR 4) with 4 by (cbn; lra). cbn; lra. }
  exists out. split; [exact E|]. rewrite P by (cbn; lia). rewrite C50_formula by (destruct (C49_sub (rg_fft g) 15000) as [-> _]; cbn; lia).
  destruct (C49_sub (rg_fft g) 15000) as [_ Q]. rewrite Q by (cbn; lia).
  replace (centred (rg_fft g) 2 * 15000) with 0 by (unfold centred; cbn; ring).
  cbn [d_path D]. rewrite !csumN_S, csumN_0. unfold turn. rewrite !Rmult_0_l, Rmult_0_r, Ropp_0, cexpi_0.
  apply cplx_eq; cbn; ring.
Qed.

(* C53: exponential correlation matrices. *)
Theorem C53_exponential :
  forall a,
  (forall x, In x a -> cnorm2 x < 1) ->
  exists ms, exp_corr_mat a = Ok ms /\ length ms = length a /\
  forall q, (q < length a)%nat ->
    let m := nth q ms (fun _ _ => c0) in
    correlation_matrix m /\ positive_definite m /\
    (forall i j, (j <= i)%nat -> m (S i) j = cmul (nth q a c0) (m i j)).
Proof. exact C53_exp. Qed.
Print Assumptions C53_exponential.

(* C53: |a| >= 1 is rejected. *)
Theorem C53_exponential_rejected :
  forall a x,
  In x a -> 1 <= cnorm2 x -> exists msg, exp_corr_mat a = Err (InvalidArgumentError msg).
Proof. exact C53_reject. Qed.
Print Assumptions C53_exponential_rejected.

(* one correlated and one uncorrelated array *)
Example exp_corr_example : exists ms, exp_corr_mat [Cx 0.6 0.3; c0] = Ok ms /\ nth 0 ms (fun _ _ => c0) 1%nat 0%nat = Cx 0.6 0.3 /\
  nth 1 ms (fun _ _ => c0) 1%nat 0%nat = c0.
Proof.
  destruct (C53_exp [Cx 0.6 0.3; c0]) as (ms & E & _ & P).
  - intros x [<-|[<-|[]]]; unfold cnorm2; cbn; lra.
  - exists ms. split; [exact E|]. split.
    + destruct (P 0%nat) as ((_ & U & _) & _ & Q); [cbn; lia|]. rewrite Q, U by lia. cbn [nth]. ring.
    + destruct (P 1%nat) as ((_ & U & _) & _ & Q); [cbn; lia|]. rewrite Q, U by lia. cbn [nth]. ring.
Qed.

(* C53: one-ring correlation matrices. *)
Theorem C53_one_ring :
  forall phis d_h sigma,
  length (one_ring_corr_mat phis d_h sigma) = length phis /\
  forall q, (q < length phis)%nat ->
    let m := nth q (one_ring_corr_mat phis d_h sigma) (fun _ _ => c0) in
    let phi := nth q phis 0 * PI / 180 in
    let sg := sigma * PI / 180 in
    correlation_matrix m /\ positive_semidefinite m /\
    (forall l k, m l k = cmul (cexpi (2 * PI * d_h * (INR l - INR k) * sin phi))
                              (creal (exp (- (sg ^ 2 / 2) * (2 * PI * d_h * (INR l - INR k) * cos phi) ^ 2)))).
Proof. exact C53_ring. Qed.
Print Assumptions C53_one_ring.
