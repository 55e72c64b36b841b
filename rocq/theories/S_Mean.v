(* Specification of means over the random initial phases of the rays, and of the second moments
   of a link with scattered rays. *)
From Coq Require Import Reals List Bool Arith.
From Verif Require Import M_Base M_Cplx M_Rays M_Antenna M_Coeff S_Coeff S_Ray.
Import ListNotations.
Open Scope R_scope.

(* phases of ray r of cluster c, k = 0..3 for the four polarisation combinations *)
Definition ray_phases := nat -> nat -> nat -> R.

(* E is the mean over independent uniform phases of n clusters of 20 rays.  Linearity and the vanishing
   mean of phasors and of products of different phasors is all that is used of the distribution. *)
Record uniform_phases (n : nat) (E : (ray_phases -> cplx) -> cplx) : Prop := {
  up_ext : forall f g, (forall x, f x = g x) -> E f = E g;
  up_add : forall f g, E (fun x => cadd (f x) (g x)) = cadd (E f) (E g);
  up_scale : forall c f, E (fun x => cmul c (f x)) = cmul c (E f);
  up_one : E (fun _ => c1) = c1;
  up_plus : forall c r k, (c < n)%nat -> (r < 20)%nat -> (k < 4)%nat -> E (fun x => cexpi (x c r k)) = c0;
  up_minus : forall c r k, (c < n)%nat -> (r < 20)%nat -> (k < 4)%nat -> E (fun x => cexpi (- x c r k)) = c0;
  up_pair : forall c r k c' r' k', (c < n)%nat -> (r < 20)%nat -> (k < 4)%nat -> (c' < n)%nat -> (r' < 20)%nat -> (k' < 4)%nat ->
    E (fun x => cexpi (x c r k - x c' r' k')) = if Nat.eqb c c' && Nat.eqb r r' && Nat.eqb k k' then c1 else c0 }.

(* correlation of two random coefficients *)
Definition mean_product (E : (ray_phases -> cplx) -> cplx) (a b : ray_phases -> cplx) : cplx :=
  E (fun x => cmul (a x) (cconj (b x))).

(* what is needed to evaluate a link between given antennas: fields at both ends (the transmit field behind the
   ionosphere) and Doppler shift, per ray *)
Record link_fields := LF { lf_rx : nat -> nat -> nat -> R * R; lf_tx : nat -> nat -> nat -> R * R; lf_shift : nat -> nat -> R }.
Record fields_of (g : cgen) (T : ltopo) (y : rays) (n : nat) (F : link_fields) : Prop := {
  fo_rx : forall c r u, (c < n)%nat -> (r < 20)%nat -> (u < pa_num_ant (cg_rx g))%nat ->
    radiates (cg_rx g) u (lt_rx_ori T) (r_zoa y c r) (r_aoa y c r) (lf_rx F c r u);
  fo_tx : forall c r s, (c < n)%nat -> (r < 20)%nat -> (s < pa_num_ant (cg_tx g))%nat ->
    exists sent, radiates (cg_tx g) s (lt_tx_ori T) (r_zod y c r) (r_aod y c r) sent /\
      through_ionosphere (cg_fc g) (lt_bs_height T) sent (lf_tx F c r s);
  fo_shift : forall c r, (c < n)%nat -> (r < 20)%nat ->
    shift g T (r_zoa y c r) (r_aoa y c r) (r_zod y c r) (r_aod y c r) (lf_shift F c r) }.

(* polarisation part: co-polar products in full, cross-polar products divided by the XPR *)
Definition polarised_power (xpr : R) (Frx Frx' Ftx Ftx' : R * R) : R :=
  fst Frx * fst Frx' * (fst Ftx * fst Ftx') + snd Frx * snd Frx' * (snd Ftx * snd Ftx')
  + (fst Frx * fst Frx' * (snd Ftx * snd Ftx') + snd Frx * snd Frx' * (fst Ftx * fst Ftx')) / xpr.

(* one antenna pair at one time *)
Record sample := At { at_rx : nat; at_tx : nat; at_time : R }.

(* phase difference of one ray between two samples: both arrays and the Doppler rotation *)
Definition phase_between (g : cgen) (T : ltopo) (y : rays) (F : link_fields) (c r : nat) (x x' : sample) : R :=
  let wavelength := 299792458 / cg_fc g in
  2 * PI * ((vdot (rho_hat (r_zoa y c r) (r_aoa y c r)) (orient (lt_rx_ori T) (pa_pos (cg_rx g) (at_rx x)))
             - vdot (rho_hat (r_zoa y c r) (r_aoa y c r)) (orient (lt_rx_ori T) (pa_pos (cg_rx g) (at_rx x')))) / wavelength
          + (vdot (rho_hat (r_zod y c r) (r_aod y c r)) (orient (lt_tx_ori T) (pa_pos (cg_tx g) (at_tx x)))
             - vdot (rho_hat (r_zod y c r) (r_aod y c r)) (orient (lt_tx_ori T) (pa_pos (cg_tx g) (at_tx x')))) / wavelength
          + lf_shift F c r * (at_time x - at_time x')).

(* contribution of one ray to the correlation of two samples *)
Definition ray_correlation (g : cgen) (T : ltopo) (y : rays) (F : link_fields) (x x' : sample) (c r : nat) : cplx :=
  cmul (creal (nth c (r_powers y) 0 / 20
               * polarised_power (r_xpr y c r) (lf_rx F c r (at_rx x)) (lf_rx F c r (at_rx x'))
                                               (lf_tx F c r (at_tx x)) (lf_tx F c r (at_tx x'))))
       (cexpi (phase_between g T y F c r x x')).
