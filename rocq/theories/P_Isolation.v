(* Property C90: an example of a batch is computed from that example alone, and a UT from the UTs up to it. *)
From Coq Require Import Reals String List Bool Arith.
From Verif Require Import M_Base M_Params S_Config M_Geometry M_Pathloss M_Scenario S_Topology M_Lsp M_Rays M_Antenna M_Cplx M_Coeff M_Channel S_Channel
  S_Isolation L_Isolation.
Import ListNotations.
Open Scope string_scope.
Open Scope list_scope.
Open Scope R_scope.

(* C90: two channel objects, however their topologies came about, give the same coefficients and delays to the first m UTs of an example in which they agree. *)
Theorem C90_isolation :
  forall srt srtd ua ba sc al ops ops' a a' dr dr' z z' fs d d' m b b',
  constructed sc -> settled sc al ops a dr z -> settled sc al ops' a' dr' z' ->
  let c := chan_run sc al (chan_init sc) ops in
  let c' := chan_run sc al (chan_init sc) ops' in
  same_example m b b' (c_st c) (c_st c') -> same_topo_draws m b b' dr dr' ->
  (if al then same_lsp_draws m b b' (cd_lsp d) (cd_lsp d') else same_lsp_draws m b b' z z') ->
  same_call_draws (sc_dir sc) m b b' d d' ->
  exists o o', chan_call srt srtd sc ua ba al c fs d = Ok o /\ chan_call srt srtd sc ua ba al c' fs d' = Ok o' /\
    forall is u iu p t, (u < m)%nat ->
      link_coefficient (sc_dir sc) o b 0 is u iu p t = link_coefficient (sc_dir sc) o' b' 0 is u iu p t /\
      link_delay (sc_dir sc) o b 0 u p = link_delay (sc_dir sc) o' b' 0 u p.
Proof. exact C90_l. Qed.
Print Assumptions C90_isolation.

(* C90: an example of a batch, cut down to its first UTs, can be set alone, and then gives these UTs the coefficients and delays they have in the batch. *)
Theorem C90_alone :
  forall sc al ut bs uo bo vel ind l dr z m b, constructed sc ->
  let a := full_args ut bs uo bo vel ind l in
  let a1 := full_args (alone m b ut) (alone 1 b bs) (alone m b uo) (alone 1 b bo) (alone m b vel) (alone m b ind) l in
  let run a dr z := chan_set_topology sc al (chan_init sc) a dr z in
  snd (run a dr z) = Ok tt -> (b < t_batch ut)%nat -> (m <= t_num ut)%nat ->
  vz (t_at bs b 0%nat) = vz (t_at bs 0%nat 0%nat) ->
  let dr1 := topo_draws_of b dr in let z1 := fun _ : nat => z b in
  snd (run a1 dr1 z1) = Ok tt /\
  forall srt srtd ua ba fs d, exists o o1,
    chan_call srt srtd sc ua ba al (fst (run a dr z)) fs d = Ok o /\
    chan_call srt srtd sc ua ba al (fst (run a1 dr1 z1)) fs (call_draws_of b d) = Ok o1 /\
    forall is u iu p t, (u < m)%nat ->
      link_coefficient (sc_dir sc) o b 0 is u iu p t = link_coefficient (sc_dir sc) o1 0 0 is u iu p t /\
      link_delay (sc_dir sc) o b 0 u p = link_delay (sc_dir sc) o1 0 0 u p.
Proof. exact C90_alone_l. Qed.
Print Assumptions C90_alone.

(* a batch of two examples with two UTs each, one of them indoors, meets the hypotheses (b = 1, m = 1 or 2) *)
Example C90_example : forall sc al dr z, constructed sc ->
  let ut := T 2 2 (fun b u => V3 (600000 + 1000 * INR b + 100 * INR u) 0 1.5) in
  let bs := T 2 1 (fun b _ => V3 (50 * INR b) 0 600000) in
  let o n := T 2 n (fun _ _ => V3 0 0 0) in
  snd (chan_set_topology sc al (chan_init sc) (full_args ut bs (o 2%nat) (o 1%nat) (o 2%nat) (T 2 2 (fun b u => Nat.eqb b u)) None) dr z) = Ok tt.
Proof. exact batch_example_l. Qed.
