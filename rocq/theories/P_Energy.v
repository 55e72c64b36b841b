(* Property C88: the energy of the taps of a discrete-time channel. *)
From Coq Require Import Reals String List Bool Arith Lia Lra ZArith.
From Verif Require Import M_Base L_Base M_Cplx M_Convert S_Convert L_Csum L_Convert S_Energy L_Energy.
Import ListNotations.
Open Scope R_scope.


(* C88: whatever the lags, the taps of an antenna pair carry at most the power of the frequency response averaged over the band. *)
Theorem C88_tap_energy :
  forall D W a tau l_min l_max b r ra t ta s,
  0 < W ->
  exists m, band_mean_power W (fun f => cir_to_ofdm D [f] a tau false b r ra t ta s 0%nat) m /\
  sumR (lags l_min l_max) (fun k => cnorm2 (cir_to_time D W a tau l_min l_max false b r ra t ta s k)) <= m.
Proof. exact C88_l. Qed.
Print Assumptions C88_tap_energy.

(* C88: they carry exactly that power when all delays are whole numbers of samples inside the window. *)
Theorem C88_tap_energy_whole_lags :
  forall D W a tau l_min l_max b r ra t ta s (lag : nat -> Z),
  0 < W ->
  (forall p, (p < d_path D)%nat -> (l_min <= lag p <= l_max)%Z /\ W * path_delay tau b r ra t ta p = IZR (lag p)) ->
  band_mean_power W (fun f => cir_to_ofdm D [f] a tau false b r ra t ta s 0%nat)
    (sumR (lags l_min l_max) (fun k => cnorm2 (cir_to_time D W a tau l_min l_max false b r ra t ta s k))).
Proof. exact C88_whole_l. Qed.
Print Assumptions C88_tap_energy_whole_lags.

(* C88: the taps of a single path, whatever its delay, carry at most the power of its coefficient. *)
Theorem C88_single_path :
  forall D W a tau l_min l_max b r ra t ta s,
  0 < W -> d_path D = 1%nat ->
  sumR (lags l_min l_max) (fun k => cnorm2 (cir_to_time D W a tau l_min l_max false b r ra t ta s k))
  <= cnorm2 (a b r ra t ta 0%nat s).
Proof. exact C88_path_l. Qed.
Print Assumptions C88_single_path.

(* Two paths one and three samples late, coefficients 3 + 4j and 1: the mean power over the band is 26. *)
Example C88_example :
  let D := Dims 1 1 1 1 1 2 1 in
  let a : coeffs := fun _ _ _ _ _ p _ => match p with O => Cx 3 4 | _ => c1 end in
  let tau := Tau4 (fun _ _ _ p => (2 * INR p + 1) / 20e6) in
  band_mean_power 20e6 (fun f => cir_to_ofdm D [f] a tau false 0%nat 0%nat 0%nat 0%nat 0%nat 0%nat 0%nat) 26.
Proof.
  intros D a tau.
  assert (L : forall p, (p < d_path D)%nat ->
    (0 <= 2 * Z.of_nat p + 1 <= 3)%Z /\ 20e6 * path_delay tau 0 0 0 0 0 p = IZR (2 * Z.of_nat p + 1)).
  { intros p Hp. cbn in Hp. split; [lia|]. cbn [path_delay tau]. rewrite plus_IZR, mult_IZR, <- INR_IZR_INZ. field. }
  assert (M := C88_whole_l D 20e6 a tau 0%Z 3%Z 0 0 0 0 0 0 (fun p => 2 * Z.of_nat p + 1)%Z ltac:(lra) L).
  change (lags 0 3) with 4%nat in M. cbn [sumR] in M.
  rewrite !(fun k => C51_whole D 20e6 a tau 0%Z 3%Z 0 0 0 0 0 0 k (fun p => 2 * Z.of_nat p + 1)%Z) in M
    by (cbn; lia || (intros p Hp; apply L; exact Hp)).
  cbn [d_path D] in M. rewrite !csumN_S, !csumN_0 in M. cbn in M.
  replace 26 with (0 + cnorm2 (cadd (cadd c0 c0) c0) + cnorm2 (cadd (cadd c0 (Cx 3 4)) c0) + cnorm2 (cadd (cadd c0 c0) c0)
    + cnorm2 (cadd (cadd c0 c0) c1)) by (unfold cnorm2; cbn; ring).
  exact M.
Qed.
