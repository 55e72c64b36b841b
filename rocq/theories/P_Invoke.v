(* Property C76: the two ways of calling the channel. *)
From Coq Require Import Reals String List Bool Arith.
From Verif Require Import M_Base L_Base M_Params M_Geometry M_Scenario S_Topology L_Fresh L_Topology M_Lsp M_Rays L_RaysEx M_Antenna M_Cplx M_Coeff S_Coeff L_Coeff
  M_Channel S_Channel L_Channel L_Link L_LinkEx M_Convert M_Invoke L_Invoke.
Import ListNotations.
Open Scope R_scope.


(* Passing a batch size first changes nothing: (batch_size, n, fs) and (n, fs) give the same response, with n time steps, and the response is the one at sampling frequency fs. *)
Theorem C76_call_forms :
  forall srt srtd sc ut_array bs_array always c d n fs,
  (forall bs, invoke srt srtd sc ut_array bs_array always c d bs (INR n) (Some fs) =
              invoke srt srtd sc ut_array bs_array always c d (INR n) fs None) /\
  (forall o, chan_call srt srtd sc ut_array bs_array always c fs d = Ok o ->
     exists r, invoke srt srtd sc ut_array bs_array always c d (INR n) fs None = Ok r /\
       rs_steps r = n /\ rs_out r = o) /\
  (forall e, chan_call srt srtd sc ut_array bs_array always c fs d = Err e ->
     invoke srt srtd sc ut_array bs_array always c d (INR n) fs None = Err e).
Proof. exact C76_l. Qed.
Print Assumptions C76_call_forms.

(* a successful call with 14 time steps, in both forms *)
Example C76_example : exists sc z d c1 r,
    chan_set_topology sc false (chan_init sc) (one_ut (V3 600000 0 0) false (Some true)) no_draws z = (c1, Ok tt) /\
    invoke argsort argsort_desc sc omni_array omni_array false c1 d (INR 14) 1e6 None = Ok r /\
    invoke argsort argsort_desc sc omni_array omni_array false c1 d 64 (INR 14) (Some 1e6) = Ok r /\
    rs_steps r = 14%nat.
Proof.
  destruct example_constructed as (sc & Hc & _). exists sc.
  destruct (omni_link argsort argsort_desc sc argsort_valid argsort_desc_valid Hc)
    as (z & d & c1 & o1 & los & h & H1 & _ & _ & H2 & _).
  exists z, d, c1. destruct (C76_l argsort argsort_desc sc omni_array omni_array false c1 d 14 1e6) as (A & B & _).
  destruct (B _ H2) as (r & R1 & R2 & _). exists r. rewrite A. auto.
Qed.
