(* Small specification for C110: how often a topology comes out, counted over equally spaced random numbers. *)
From Coq Require Import Reals List Arith.
From Verif Require Import M_Geometry M_Scenario.
Import ListNotations.
Local Open Scope R_scope.

(* L random numbers, each one of 0/N, 1/N, .., (N-1)/N, given by their numerators; the generator of
   TensorFlow yields numbers of this kind with N = 2^23 in single and N = 2^52 in double precision *)
Definition outcome (N L : nat) (w : list nat) : Prop := length w = L /\ Forall (fun k => (k < N)%nat) w.

(* the random number of the link (b,s,u) if the links ls get the numbers w in this order *)
Fixpoint handed (N : nat) (ls : list (nat * nat * nat)) (w : list nat) (b s u : nat) : R :=
  match ls, w with
  | (b', s', u') :: ls', k :: w' =>
      if (Nat.eqb b b' && Nat.eqb s s' && Nat.eqb u u')%bool then INR k / INR N else handed N ls' w' b s u
  | _, _ => 0
  end.

(* the draws dr with other random numbers for the LoS states *)
Definition with_los_draws (f : nat -> nat -> nat -> R) (dr : topo_draws) : topo_draws :=
  {| dr_indoor := dr_indoor dr; dr_los := f; dr_z_los := dr_z_los dr; dr_z_nlos := dr_z_nlos dr |}.

(* P holds for exactly n of the outcomes *)
Definition holds_for (N L n : nat) (P : list nat -> Prop) : Prop :=
  exists W, NoDup W /\ length W = n /\ forall w, In w W <-> outcome N L w /\ P w.

(* product of the numbers of favourable cases, c for a link wanted with line of sight *)
Fixpoint favourable (N c : nat) (want : list bool) : nat :=
  match want with
  | [] => 1
  | x :: r => (if x then c else N - c) * favourable N c r
  end.
