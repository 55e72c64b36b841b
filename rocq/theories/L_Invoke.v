(* The two ways of calling the channel (C76). *)
From Coq Require Import Reals String List ZArith Lra Lia.
From Verif Require Import M_Base M_Params M_Geometry M_Antenna M_Channel M_Convert M_Invoke L_Grids.
Open Scope R_scope.

Lemma range_size_INR n : range_size (INR n) = n.
Proof. unfold range_size. rewrite INR_IZR_INZ, ceil_Z, Nat2Z.id. reflexivity. Qed.

Lemma C76_l : forall srt srtd sc ut_array bs_array always c d n fs,
  (forall bs, invoke srt srtd sc ut_array bs_array always c d bs (INR n) (Some fs) =
              invoke srt srtd sc ut_array bs_array always c d (INR n) fs None) /\
  (forall o, chan_call srt srtd sc ut_array bs_array always c fs d = Ok o ->
     exists r, invoke srt srtd sc ut_array bs_array always c d (INR n) fs None = Ok r /\
       rs_steps r = n /\ rs_out r = o) /\
  (forall e, chan_call srt srtd sc ut_array bs_array always c fs d = Err e ->
     invoke srt srtd sc ut_array bs_array always c d (INR n) fs None = Err e).
Proof.
  intros. unfold invoke, resolve_args. split; [reflexivity|]. split.
  - intros o ->. cbn [bind]. eexists. split; [reflexivity|]. cbn. split; [apply range_size_INR | reflexivity].
  - intros e ->. reflexivity.
Qed.
