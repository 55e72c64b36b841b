(* The power of a frequency-dependent channel, averaged over a band of width W around the carrier. *)
From Coq Require Import Reals.
From Verif Require Import M_Cplx.
Open Scope R_scope.

Definition band_mean_power (W : R) (H : R -> cplx) (m : R) : Prop :=
  exists pr : Riemann_integrable (fun f => re (H f) ^ 2 + im (H f) ^ 2) (- (W / 2)) (W / 2), m = RiemannInt pr / W.
