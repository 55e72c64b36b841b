(* Specification: the UTs of a topology picked out in another order, with the random numbers drawn for them. *)
From Coq Require Import Reals String List Bool Arith.
From Verif Require Import M_Base M_Geometry M_Scenario M_Lsp M_Rays M_Channel.
Open Scope R_scope.

(* the numbers p 0, ..., p (m - 1) are UTs of a topology with n UTs and differ from each other *)
Definition picks (n m : nat) (p : nat -> nat) : Prop :=
  (forall u, (u < m)%nat -> (p u < n)%nat) /\ forall u v, (u < m)%nat -> (v < m)%nat -> p u = p v -> u = v.

(* two UTs numbered the other way round *)
Definition exchange (u : nat) : nat := (1 - u)%nat.

(* UT u of the new topology is UT p u of the old one, in every example of the batch *)
Definition pick {A} (m : nat) (p : nat -> nat) (x : tens A) : tens A := T (t_batch x) m (fun b u => t_at x b (p u)).

(* the random numbers of UT p u are drawn for UT u; those shared by all UTs are left as they are *)
Definition pick_topo_draws (p : nat -> nat) (d : topo_draws) : topo_draws :=
  {| dr_indoor := fun b s u => dr_indoor d b s (p u); dr_los := fun b s u => dr_los d b s (p u);
     dr_z_los := fun b s u => dr_z_los d b s (p u); dr_z_nlos := fun b s u => dr_z_nlos d b s (p u) |}.
Definition pick_angle_draws (p : nat -> nat) (d : angle_draws) : angle_draws :=
  {| ad_sign := ad_sign d; ad_comp := fun b s u => ad_comp d b s (p u); ad_mix := ad_mix d |}.
Definition pick_ray_draws (p : nat -> nat) (d : ray_draws) : ray_draws :=
  {| rd_x := fun b s u => rd_x d b s (p u); rd_shadow := fun b s u => rd_shadow d b s (p u);
     rd_aoa := pick_angle_draws p (rd_aoa d); rd_aod := pick_angle_draws p (rd_aod d);
     rd_zoa := pick_angle_draws p (rd_zoa d); rd_zod := pick_angle_draws p (rd_zod d);
     rd_xpr := fun b s u => rd_xpr d b s (p u) |}.
(* the phases are indexed by transmitter, then receiver: the UT is the transmitter of the uplink.
   lsp: the draws of the large scale parameters *)
Definition pick_call_draws (dir : string) (p : nat -> nat) (lsp : nat -> nat -> nat -> nat -> R) (d : call_draws) : call_draws :=
  {| cd_lsp := lsp; cd_rays := pick_ray_draws p (cd_rays d); cd_dir := cd_dir d;
     cd_phase := fun b i j => if String.eqb dir "uplink" then cd_phase d b (p i) j else cd_phase d b i (p j) |}.

(* decimal logarithm of a large scale parameter x of UT u of example b, less its value for draws of 0;
   f z: the parameters sampled from the draws z *)
Definition deviation (x : lsp -> R) (f : (nat -> nat -> R) -> grid lsp) (b u : nat) (z : nat -> nat -> R) : R :=
  ln (x (f z b 0%nat u)) / ln 10 - ln (x (f (fun _ _ => 0) b 0%nat u)) / ln 10.
