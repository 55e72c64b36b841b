(* Small specification for C107: a stock of distinct random values and the ways of dealing it out. *)
From Coq Require Import Reals Arith.
From Verif Require Import M_Rays S_Rays.
Local Open Scope R_scope.

(* the values v 0 .. v (n-1) are pairwise different *)
Definition distinct_values (n : nat) (v : nat -> R) : Prop :=
  forall i j, (i < n)%nat -> (j < n)%nat -> v i = v j -> i = j.

(* w deals the values v 0 .. v (n-1) out in some order *)
Definition deals (n : nat) (v w : nat -> R) : Prop :=
  exists g, rearrangement n g /\ forall q, (q < n)%nat -> w q = v (g q).

(* the draws d with other coupling draws *)
Definition recoupled (d : ray_draws) (m1 m2 m3 m4 : nat -> nat -> nat -> nat -> R) : ray_draws :=
  let set a m := {| ad_sign := ad_sign a; ad_comp := ad_comp a; ad_mix := m |} in
  {| rd_x := rd_x d; rd_shadow := rd_shadow d; rd_aoa := set (rd_aoa d) m1; rd_aod := set (rd_aod d) m2;
     rd_zoa := set (rd_zoa d) m3; rd_zod := set (rd_zod d) m4; rd_xpr := rd_xpr d |}.
