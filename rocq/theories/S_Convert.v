(* Specification vocabulary for grids, conversions and correlation matrices. *)
From Coq Require Import Reals List Bool Arith ZArith.
From Verif Require Import M_Base M_Cplx M_Convert.
Import ListNotations.
Open Scope R_scope.

(* index of entry i relative to the centre of an n-point grid: 0 at i = floor(n/2) *)
Definition centred (n i : nat) : R := INR i - INR (n / 2).

(* a phasor turning clockwise: e^{-j 2 pi x} *)
Definition turn (x : R) : cplx := cexpi (- (2 * PI * x)).

(* the delay of a path between two antennas: given per link, or per pair of antennas *)
Definition path_delay (d : delays) (b rx rx_ant tx tx_ant p : nat) : R :=
  match d with Tau4 x => x b rx tx p | Tau6 x => x b rx rx_ant tx tx_ant p end.
(* every path arrives delta later *)
Definition later (delta : R) (tau : delays) : delays :=
  match tau with
  | Tau4 x => Tau4 (fun b r t p => x b r t p + delta)
  | Tau6 x => Tau6 (fun b r ra t ta p => x b r ra t ta p + delta)
  end.
(* number of integers from l_min to l_max *)
Definition lags (l_min l_max : Z) : nat := Z.to_nat (l_max - l_min + 1).
(* energy of a block of responses *)
Definition energy (n1 n2 n3 n4 : nat) (h : nat -> nat -> nat -> nat -> cplx) : R :=
  sumR n1 (fun i => sumR n2 (fun j => sumR n3 (fun k => sumR n4 (fun l => re (h i j k l) ^ 2 + im (h i j k l) ^ 2)))).

(* Hermitian Toeplitz with unit diagonal and entries inside the unit disc *)
Definition correlation_matrix (m : nat -> nat -> cplx) : Prop :=
  (forall i j, m j i = cconj (m i j)) /\
  (forall i, m i i = c1) /\
  (forall i j k, m (i + k)%nat (j + k)%nat = m i j) /\
  (forall i j, cnorm2 (m i j) <= 1).

(* x^H M x over the first n rows and columns *)
Definition quadratic_form (n : nat) (m : nat -> nat -> cplx) (x : nat -> cplx) : cplx :=
  csumN n (fun i => csumN n (fun j => cmul (cmul (cconj (x i)) (m i j)) (x j))).
Definition positive_semidefinite (m : nat -> nat -> cplx) : Prop :=
  forall n x, im (quadratic_form n m x) = 0 /\ 0 <= re (quadratic_form n m x).
Definition positive_definite (m : nat -> nat -> cplx) : Prop :=
  forall n x, (exists i, (i < n)%nat /\ x i <> c0) ->
    im (quadratic_form n m x) = 0 /\ 0 < re (quadratic_form n m x).
