(* Property of the rain and cloud attenuation: C93. *)
From Coq Require Import Reals String List Bool Arith Lia Lra.
From Verif Require Import M_Base M_Params M_Geometry M_Pathloss M_Scenario S_Topology L_Topology M_Rain L_Rain.
Import ListNotations.
Open Scope string_scope.
Open Scope list_scope.
Open Scope R_scope.

(* C93 does not hold: in the uplink, below the zenith, the routine always raises ValueError. *)
Theorem C93_uplink_refuted :
  forall sc st w,
  constructed sc -> sc_dir sc = "uplink" -> sc_elev sc < 90 ->
  s_weather st = Some w -> -90 <= w_latitude w < 89 -> w_temperature w <> 0 ->
  pathloss_additional sc st = Err (ValueError "math domain error").
Proof. exact C93_uplink_l. Qed.
Print Assumptions C93_uplink_refuted.

(* C93 does not hold: in the downlink the routine always raises, TypeError unless there is a single station. *)
Theorem C93_downlink_refuted :
  forall sc st w bs,
  constructed sc -> sc_dir sc = "downlink" ->
  s_weather st = Some w -> s_bs_loc st = Some bs -> -90 <= w_latitude w -> w_temperature w <> 0 ->
  14 <= vz (t_at bs 0%nat 0%nat) ->
  pathloss_additional sc st =
    Err (if Nat.eqb (t_batch bs * t_num bs) 1 then ValueError "math domain error"
         else TypeError "only size-1 arrays can be converted to Python scalars").
Proof. exact C93_downlink_l. Qed.
Print Assumptions C93_downlink_refuted.

(* both directions, after a topology with one satellite 600 km up and default weather *)
Example C93_example : forall dir dr, dir = "uplink" \/ dir = "downlink" -> exists sc st',
  constructed sc /\ sc_dir sc = dir /\ sc_elev sc = 45 /\ set_topology sc (init_state sc) lone_args dr = (st', Ok true) /\
  pathloss_additional sc st' = Err (ValueError "math domain error").
Proof. exact C93_example_l. Qed.
