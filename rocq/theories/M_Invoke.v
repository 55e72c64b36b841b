(* SystemLevelChannel.__call__ as the caller sees it: positional arguments, number of time steps. *)
From Coq Require Import Reals String List ZArith.
From Verif Require Import M_Base M_Params M_Geometry M_Antenna M_Channel M_Convert.
Open Scope R_scope.

(* tf.range(num_time_samples): 0, 1, ... below the argument; channel_coefficients.py:207 *)
Definition range_size (x : R) : nat := Z.to_nat (ceil x).

(* system_level_channel.py:269 *)
Record response := { rs_steps : nat; rs_out : output }.

(* system_level_channel.py:156-269 with the argument handling of :164-167 *)
Definition invoke (srt srtd : list R -> list nat) (sc : scenario) (ut_array bs_array : panel_array)
    (always : bool) (c : chan) (d : call_draws) (x y : R) (foo : option R) : res response :=
  let (n, fs) := resolve_args x y foo in
  o <- chan_call srt srtd sc ut_array bs_array always c fs d ;;
  Ok {| rs_steps := range_size n; rs_out := o |}.
