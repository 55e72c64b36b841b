(* C110: the LoS states occur with the probability of the table, independently of each other. *)
From Coq Require Import Reals String List Arith.
From Verif Require Import M_Base M_Params S_Config M_Geometry M_Scenario S_Topology L_Topology S_LosFair L_LosFair.
Import ListNotations.
Open Scope string_scope.
Open Scope list_scope.
Open Scope R_scope.

(* C110: let the random numbers be equally spaced, N of them.  There is a number c with c/N within 1/N of the tabulated LoS probability such that, for every set of outdoor links and every pattern of LoS states wanted for them, exactly the product of the numbers c (LoS wanted) and N - c (no LoS wanted) of the possible draws give that pattern: the links are independent, each LoS with the tabulated probability. *)
Theorem C110_joint :
  forall sc st a dr st' ind, constructed sc -> set_topology sc st a dr = (st', Ok true) -> s_req_los st' = None ->
  s_in st' = Some ind -> forall N, (0 < N)%nat -> exists p c,
  documented_value (sc_env sc) (sc_fc sc) (sc_dir sc) (sc_elev sc) true "LoS_p" (Fin p) /\
  (c <= N)%nat /\ Rabs (INR c / INR N - p) < / INR N /\
  forall ls want, NoDup ls -> length want = length ls -> (forall b s u, In (b, s, u) ls -> t_at ind b u = false) ->
    holds_for N (length ls) (favourable N c want) (fun w => exists st2 los,
      set_topology sc st a (with_los_draws (handed N ls w) dr) = (st2, Ok true) /\ s_los st2 = Some los /\
      map (fun l => match l with (b, s, u) => los b s u end) ls = want).
Proof. exact C110_joint_l. Qed.
Print Assumptions C110_joint.

(* C110: a single outdoor link is LoS for c of the N values of its random number. *)
Theorem C110_link :
  forall sc st a dr st' ind, constructed sc -> set_topology sc st a dr = (st', Ok true) -> s_req_los st' = None ->
  s_in st' = Some ind -> forall N b s u : nat, (0 < N)%nat -> t_at ind b u = false -> exists (p : R) (c : nat),
  documented_value (sc_env sc) (sc_fc sc) (sc_dir sc) (sc_elev sc) true "LoS_p" (Fin p) /\
  Rabs (INR c / INR N - p) < / INR N /\
  holds_for N 1 c (fun w => exists st2 los,
      set_topology sc st a (with_los_draws (handed N [(b, s, u)] w) dr) = (st2, Ok true) /\ s_los st2 = Some los /\ los b s u = true).
Proof. exact C110_link_l. Qed.
Print Assumptions C110_link.

(* C110: with the same draws a link that is LoS at some elevation angle is LoS at every higher one. *)
Theorem C110_elevation :
  forall e fc ut bs dir el1 el2 pl sh dop sc1 sc2 st1 st2 a dr st1' st2' los1 los2 ind,
  scenario_init e fc ut bs dir el1 pl sh dop = Ok sc1 -> scenario_init e fc ut bs dir el2 pl sh dop = Ok sc2 -> el1 <= el2 ->
  set_topology sc1 st1 a dr = (st1', Ok true) -> set_topology sc2 st2 a dr = (st2', Ok true) ->
  s_req_los st1' = None -> s_req_los st2' = None -> s_in st1' = Some ind -> s_in st2' = Some ind ->
  s_los st1' = Some los1 -> s_los st2' = Some los2 -> forall b s u, los1 b s u = true -> los2 b s u = true.
Proof. exact C110_elevation_l. Qed.
Print Assumptions C110_elevation.

(* the hypotheses of C110_joint and C110_link are met: three UTs, the last one indoors *)
Example C110_example : exists sc st' ind ls, constructed sc /\ set_topology sc (init_state sc) fair_args mixed_draws = (st', Ok true) /\
  s_req_los st' = None /\ s_in st' = Some ind /\ t_at ind 0%nat 2%nat = true /\
  ls = [(0, 0, 0); (0, 0, 1)]%nat /\ NoDup ls /\ (forall b s u, In (b, s, u) ls -> t_at ind b u = false) /\
  favourable 10 3 [true; false] = 21%nat.
Proof. exact C110_example_l. Qed.

(* the hypotheses of C110_elevation are met: elevations of 20 and 70 degrees *)
Example C110_elevation_example : exists sc1 sc2 st1' st2' los1 los2 ind,
  scenario_init Urban 2e9 ex_array ex_array "downlink" 20 true true true = Ok sc1 /\
  scenario_init Urban 2e9 ex_array ex_array "downlink" 70 true true true = Ok sc2 /\
  set_topology sc1 (init_state sc1) fair_args mixed_draws = (st1', Ok true) /\
  set_topology sc2 (init_state sc2) fair_args mixed_draws = (st2', Ok true) /\
  s_req_los st1' = None /\ s_req_los st2' = None /\ s_in st1' = Some ind /\ s_in st2' = Some ind /\
  s_los st1' = Some los1 /\ s_los st2' = Some los2.
Proof. exact C110_elevation_example_l. Qed.
