(* Matrices: the textbook notions used by the statements about correlation matrices. *)
From Coq Require Import Reals Arith.
From Verif Require Import M_Base.
Open Scope R_scope.

Definition quad (n : nat) (A : nat -> nat -> R) (x : nat -> R) : R :=
  sumR n (fun i => sumR n (fun j => x i * A i j * x j)).

Definition pos_def (n : nat) (A : nat -> nat -> R) : Prop :=
  forall x, (exists i, (i < n)%nat /\ x i <> 0) -> 0 < quad n A x.

Definition pos_semidef (n : nat) (A : nat -> nat -> R) : Prop := forall x, 0 <= quad n A x.

Definition symmetric (n : nat) (A : nat -> nat -> R) : Prop :=
  forall i j, (i < n)%nat -> (j < n)%nat -> A i j = A j i.
