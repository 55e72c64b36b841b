(* Specification of the OFDM channel obtained from the output of a channel object. *)
From Coq Require Import Reals String List Bool Arith.
From Verif Require Import M_Base M_Cplx M_Convert S_Convert M_Channel S_Channel.
Open Scope R_scope.

(* a tensor read at antenna is of satellite s and antenna iu of UT u, receiver axes first *)
Definition on_link {A} (dir : string) (x : nat -> nat -> nat -> nat -> nat -> A) (b s is u iu : nat) : A :=
  if String.eqb dir "uplink" then x b s is u iu else x b u iu s is.

(* a and tau hold, for this pair of antennas, the coefficients and delays of the output, none of which is NaN *)
Definition tensors_of (dir : string) (o : output) (b s is u iu paths : nat) (a : coeffs) (tau : delays) : Prop :=
  forall p, (p < paths)%nat ->
    link_delay dir o b s u p = Some (on_link dir (fun b r ra t ta => path_delay tau b r ra t ta p) b s is u iu) /\
    forall time, link_coefficient dir o b s is u iu p time = Some (on_link dir (fun b r ra t ta => a b r ra t ta p time) b s is u iu).
