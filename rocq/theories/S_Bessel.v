(* The Bessel function of the first kind and order one, by Bessel's integral
   J1(x) = (1/pi) * integral of cos(t - x sin t) for t from 0 to pi. *)
From Coq Require Import Reals Lra.
Open Scope R_scope.

Definition bessel_integrand (x t : R) : R := cos (t - x * sin t).

Lemma bessel_integrable (x : R) : Riemann_integrable (bessel_integrand x) 0 PI.
Proof.
  apply continuity_implies_RiemannInt; [left; exact PI_RGT_0|]. intros t _.
  unfold bessel_integrand. apply derivable_continuous_pt. reg.
Qed.

Definition bessel_J1 (x : R) : R := RiemannInt (bessel_integrable x) / PI.
