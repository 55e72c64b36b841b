(* Specification of the mean received power of one link of the channel object. *)
From Coq Require Import Reals String List Bool Arith.
From Verif Require Import M_Base M_Scenario M_Lsp M_Rays M_Antenna M_Cplx M_Coeff S_Coeff S_Ray S_Mean M_Channel S_Channel.
Import ListNotations.
Open Scope string_scope.
Open Scope list_scope.
Open Scope R_scope.

(* calls that differ in the initial phases only; the phases of the link between satellite s and UT u are ph,
   those of the other links are arbitrary *)
Record only_phases_vary (dir : string) (b s u : nat) (d : call_draws) (D : ray_phases -> call_draws) : Prop := {
  pv_lsp : forall ph, cd_lsp (D ph) = cd_lsp d;
  pv_rays : forall ph, cd_rays (D ph) = cd_rays d;
  pv_dir : forall ph, cd_dir (D ph) = cd_dir d;
  pv_down : dir <> "uplink" -> forall ph, cd_phase (D ph) b s u = ph;
  pv_up : dir = "uplink" -> forall ph, cd_phase (D ph) b u s = ph }.

(* power received over the first n paths *)
Definition received_power (dir : string) (o : output) (b s is u iu n t : nat) : R :=
  Rsum (map (fun p => match link_coefficient dir o b s is u iu p t with Some h => cnorm2 h | None => 0 end) (seq 0 n)).

(* mean over the phases of the rays of the power of antenna pair (rx, tx): direct ray and scattered rays mixed
   by the K-factor *)
Definition scattered_power (y : rays) (F : link_fields) (n rx tx : nat) : R :=
  Rsum (map (fun cr => nth (fst cr) (r_powers y) 0 / 20 *
      polarised_power (r_xpr y (fst cr) (snd cr)) (lf_rx F (fst cr) (snd cr) rx) (lf_rx F (fst cr) (snd cr) rx)
                      (lf_tx F (fst cr) (snd cr) tx) (lf_tx F (fst cr) (snd cr) tx)) (list_prod (seq 0 n) (seq 0 20))).
Definition ricean (los : bool) (K direct scattered : R) : R :=
  if los then K / (K + 1) * direct + 1 / (K + 1) * scattered else scattered.

(* a vertical omnidirectional array, turned about the vertical only *)
Definition vertical_omni (p : array_args) : Prop := ar_pol p = "single" /\ ar_type p = "V" /\ ar_pattern p = "omni".
Definition upright (o : vec3) : Prop := vy o = 0 /\ vz o = 0.
(* a direction that is neither up nor down *)
Definition slanted (theta : R) : Prop := sin theta <> 0.
