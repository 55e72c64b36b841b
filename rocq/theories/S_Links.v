(* Specification vocabulary for the tapped and clustered delay lines. *)
From Coq Require Import Reals String List Bool Arith.
From Verif Require Import M_Base M_Cplx.
Import ListNotations.
Open Scope string_scope.
Open Scope list_scope.
Open Scope R_scope.

(* ---- documented profiles: (delay, power in dB) per tap ---- *)
(* TR 38.811 tables 6.9.2-1 to 6.9.2-4 (delays in units of the delay spread; for the LoS models
   the first row is the specular and the second the diffuse part of the first tap) and
   TS 38.101-4 tables B.2.1.1-2 to -4 (delays in ns). *)
Record profile := Profile { pf_los : bool; pf_scalable : bool; pf_rows : list (R * R) }.
Definition documented_profile (m : string) : option profile :=
  if String.eqb m "A" then Some (Profile false true [(0, 0); (1.0811, -4.675); (2.8416, -6.482)])
  else if String.eqb m "B" then Some (Profile false true [(0, 0); (0.7249, -1.973); (0.7410, -4.332); (5.7392, -11.914)])
  else if String.eqb m "C" then Some (Profile true true [(0, -0.394); (0, -10.618); (14.8124, -23.373)])
  else if String.eqb m "D" then Some (Profile true true [(0, -0.284); (0, -11.991); (0.5596, -9.887); (7.3340, -16.771)])
  else if String.eqb m "A30" then Some (Profile false false
    [(0, -15.5); (10, 0); (15, -5.1); (20, -5.1); (25, -9.6); (50, -8.2); (65, -13.1); (75, -11.5); (105, -11); (135, -16.2); (150, -16.6); (290, -26.2)])
  else if String.eqb m "B100" then Some (Profile false false
    [(0, 0); (10, -2.2); (20, -0.6); (30, -0.6); (35, -0.3); (45, -1.2); (55, -5.9); (120, -2.2); (170, -0.8); (245, -6.3); (330, -7.5); (480, -7.1)])
  else if String.eqb m "C300" then Some (Profile false false
    [(0, -6.9); (65, 0); (70, -7.7); (190, -2.5); (195, -2.4); (200, -9.9); (240, -8); (325, -6.6); (520, -7.1); (1045, -13); (1510, -14.2); (2595, -16)])
  else None.

(* linear powers of the rows, and their total *)
Definition linear_powers (p : profile) : list R := map (fun r => Rpower 10 (snd r / 10)) (pf_rows p).
Definition total_power (p : profile) : R := Rsum (linear_powers p).
(* powers and delays of the taps: in a LoS model the first two rows make one tap *)
Definition tap_powers (p : profile) : list R :=
  match pf_los p, linear_powers p with true, a :: b :: r => (a + b) :: r | _, l => l end.
Definition tap_delays (p : profile) : list R :=
  match pf_los p, map fst (pf_rows p) with true, _ :: r => r | _, l => l end.

(* root-mean-square spread of a power delay profile *)
Definition mean_delay (powers delays : list R) : R := Rsum (map (fun x => fst x * snd x) (combine powers delays)) / Rsum powers.
Definition rms_delay_spread (powers delays : list R) : R :=
  sqrt (Rsum (map (fun x => fst x * snd x ^ 2) (combine powers delays)) / Rsum powers - mean_delay powers delays ^ 2).

(* ---- Doppler, TR 38.811 6.8.2 / 6.7.1 ---- *)
Definition earth_gm : R := 6.6743 * 5.972 * 10 ^ 13.        (* m^3/s^2 *)
Definition earth_radius_m : R := 6371000.
Definition light : R := 299792458.
(* Doppler frequency in Hz of a satellite on a circular orbit seen under elevation alpha (degrees) *)
Definition satellite_doppler (height alpha fc : R) : R :=
  sqrt (earth_gm / (earth_radius_m + height)) / light * (earth_radius_m / (earth_radius_m + height) * cos (alpha * PI / 180)) * fc.

(* ---- spatial correlation ---- *)
(* l is a square root of the n x n matrix r: r = l l^H *)
Definition square_root (n : nat) (r l : nat -> nat -> cplx) : Prop :=
  forall i j, (i < n)%nat -> (j < n)%nat -> r i j = csumN n (fun k => cmul (l i k) (cconj (l j k))).
(* the covariance of the outputs of a linear map with weights w from uncorrelated unit-power inputs *)
Definition covariance (n : nat) (w : nat -> nat -> cplx) (i j : nat) : cplx :=
  csumN n (fun k => cmul (w i k) (cconj (w j k))).

(* ---- averaging over independent uniform phases ---- *)
(* E is the mean over the drawn phases: phi rx tx path sinusoid, and phi0 of the specular part.
   Linear, and phasors of different draws are uncorrelated; this is all that is used of the
   uniform distribution. *)
Definition phases := nat -> nat -> nat -> nat -> R.
Definition same4 (r s p k r' s' p' k' : nat) : bool :=
  Nat.eqb r r' && Nat.eqb s s' && Nat.eqb p p' && Nat.eqb k k'.
Record phase_mean (nr nt np n : nat) (E : (phases -> R -> cplx) -> cplx) : Prop := {
  pm_ext : forall f g, (forall x z, f x z = g x z) -> E f = E g;
  pm_add : forall f g, E (fun x z => cadd (f x z) (g x z)) = cadd (E f) (E g);
  pm_scale : forall c f, E (fun x z => cmul c (f x z)) = cmul c (E f);
  pm_one : E (fun _ _ => c1) = c1;
  pm_pair : forall r s p k r' s' p' k',
    (r < nr)%nat -> (s < nt)%nat -> (p < np)%nat -> (k < n)%nat ->
    (r' < nr)%nat -> (s' < nt)%nat -> (p' < np)%nat -> (k' < n)%nat ->
    E (fun x _ => cexpi (x r s p k - x r' s' p' k')) = if same4 r s p k r' s' p' k' then c1 else c0;
  pm_los : forall r s p k, (r < nr)%nat -> (s < nt)%nat -> (p < np)%nat -> (k < n)%nat ->
    E (fun x z => cexpi (z - x r s p k)) = c0;
  pm_los' : forall r s p k, (r < nr)%nat -> (s < nt)%nat -> (p < np)%nat -> (k < n)%nat ->
    E (fun x z => cexpi (x r s p k - z)) = c0 }.

(* mean of the product of one coefficient with the conjugate of another *)
Definition correlation (E : (phases -> R -> cplx) -> cplx) (a b : phases -> R -> cplx) : cplx :=
  E (fun x z => cmul (a x z) (cconj (b x z))).

(* Clarke's model: the autocorrelation at lag tau of n unit-power scatterers of total power one,
   seen under the angles 2 pi (k+1)/n + theta k, at maximum Doppler shift w (rad/s) *)
Definition scatter_autocorrelation (n : nat) (w : R) (theta : nat -> R) (tau : R) : cplx :=
  cmul (creal (1 / INR n)) (csumN n (fun k => cexpi (w * tau * cos (2 * PI / INR n * INR (k + 1) + theta k)))).

(* ---- CDL angles, TR 38.811 tables 6.9.1-1 to 6.9.1-4: per row the arrival azimuth and zenith
   in degrees (all departures have azimuth 0 and zenith 140), the cluster spreads of the
   arrival angles (those of the departure angles are 0) and the cross-polarisation ratio in dB *)
Record cdl_doc := CdlDoc { cd_aoa : list R; cd_zoa : list R; cd_asa : R; cd_zsa : R; cd_xpr : R }.
Definition documented_angles (m : string) : option cdl_doc :=
  if String.eqb m "A" then Some (CdlDoc [178.8; -115.7; 111.5] [35.6; 22.9; 127.4] 15 7 10)
  else if String.eqb m "B" then Some (CdlDoc [-174.6; 144.9; -119.8; -88.8] [42.2; 63.4; 89.7; 174.1] 15 7 10)
  else if String.eqb m "C" then Some (CdlDoc [-180; -180; -75.9] [40; 40; 87.1] 11 7 16)
  else if String.eqb m "D" then Some (CdlDoc [-180; -180; -135.4; -121.5] [40; 40; 146.2; 136.0] 11 7 16)
  else None.
(* the 20 ray offsets of TR 38.901 table 7.5-3 *)
Definition documented_offsets : list R :=
  flat_map (fun x => [x; - x]) [0.0447; 0.1413; 0.2492; 0.3715; 0.5129; 0.6797; 0.8844; 1.1481; 1.5195; 2.1551].
(* rays of a cluster centred at a with spread c, in radians *)
Definition cluster_rays (a c : R) : list R := map (fun o => (a + c * o) * (PI / 180)) documented_offsets.
(* the clusters of a model: in a LoS model the first row is the direct ray *)
Definition clusters_of {A} (los : bool) (l : list A) : list A := if los then tl l else l.
