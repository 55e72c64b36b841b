(* Property C104: the numbering of the UTs. *)
From Coq Require Import Reals String List Bool Arith Lia.
From Verif Require Import M_Base M_Params S_Config M_Geometry M_Pathloss M_Scenario S_Topology M_Lsp S_Lsp M_Rays M_Antenna M_Cplx M_Coeff M_Channel S_Channel
  S_Isolation L_Isolation S_Renumber L_Renumber L_RenumberCov.
Import ListNotations.
Open Scope string_scope.
Open Scope list_scope.
Open Scope R_scope.

(* C104: UTs picked out of an accepted topology, in any order, are accepted too, and for suitable draws of the large scale parameters every UT has the coefficients and delays it had under its old number. *)
Theorem C104_numbering :
  forall sc al ut bs uo bo vel ind l dr z m p, constructed sc ->
  let a := full_args ut bs uo bo vel ind l in
  let a1 := full_args (pick m p ut) bs (pick m p uo) bo (pick m p vel) (pick m p ind) l in
  let run a dr z := chan_set_topology sc al (chan_init sc) a dr z in
  snd (run a dr z) = Ok tt -> picks (t_num ut) m p ->
  let dr1 := pick_topo_draws p dr in
  exists z1, snd (run a1 dr1 z1) = Ok tt /\
  forall srt srtd ua ba fs d, exists zd o o1,
    chan_call srt srtd sc ua ba al (fst (run a dr z)) fs d = Ok o /\
    chan_call srt srtd sc ua ba al (fst (run a1 dr1 z1)) fs (pick_call_draws (sc_dir sc) p zd d) = Ok o1 /\
    forall b is u iu q t, (b < t_batch ut)%nat -> (u < m)%nat ->
      link_coefficient (sc_dir sc) o b 0 is (p u) iu q t = link_coefficient (sc_dir sc) o1 b 0 is u iu q t /\
      link_delay (sc_dir sc) o b 0 (p u) q = link_delay (sc_dir sc) o1 b 0 u q.
Proof. exact C104_l. Qed.
Print Assumptions C104_numbering.

(* C104: the variances of delay spread, shadow fading and K-factor, and their covariances between UTs, do not depend on the numbering. F, F1: the parameters sampled from the draws. *)
Theorem C104_one_parameter :
  forall sc ut bs uo bo vel ind l dr z0 m p, constructed sc ->
  let a := full_args ut bs uo bo vel ind l in
  let a1 := full_args (pick m p ut) bs (pick m p uo) bo (pick m p vel) (pick m p ind) l in
  let run a dr z := chan_set_topology sc false (chan_init sc) a dr z in
  snd (run a dr z0) = Ok tt -> picks (t_num ut) m p ->
  forall b, (b < t_batch ut)%nat ->
  exists F F1,
    (forall z : nat -> nat -> R, snd (run a dr (fun _ _ => z)) = Ok tt /\ c_lsp (fst (run a dr (fun _ _ => z))) = Some (F z)) /\
    (forall z : nat -> nat -> R, snd (run a1 (pick_topo_draws p dr) (fun _ _ => z)) = Ok tt /\
       c_lsp (fst (run a1 (pick_topo_draws p dr) (fun _ _ => z))) = Some (F1 z)) /\
    forall x u u', (x = l_ds \/ x = l_sf \/ x = l_k) -> (u < m)%nat -> (u' < m)%nat ->
      covariance m (deviation x F1 b u) (deviation x F1 b u') =
      covariance (t_num ut) (deviation x F b (p u)) (deviation x F b (p u')).
Proof. exact C104_one_l. Qed.
Print Assumptions C104_one_parameter.

(* C104 fails for the joint distribution: in every configuration there are two UTs such that delay spread and shadow fading of one of them are more weakly correlated if it is numbered second than if it is numbered first. *)
Theorem C104_two_parameters_refuted :
  forall sc, constructed sc ->
  exists ut bs uo bo vel ind l dr F F1,
    let run a dr z := chan_set_topology sc false (chan_init sc) a dr (fun _ _ => z) in
    let a := full_args ut bs uo bo vel ind l in
    let a1 := full_args (pick 2 exchange ut) bs (pick 2 exchange uo) bo (pick 2 exchange vel) (pick 2 exchange ind) l in
    t_batch ut = 1%nat /\ t_num ut = 2%nat /\
    (forall z, snd (run a dr z) = Ok tt /\ c_lsp (fst (run a dr z)) = Some (F z)) /\
    (forall z, snd (run a1 (pick_topo_draws exchange dr) z) = Ok tt /\ c_lsp (fst (run a1 (pick_topo_draws exchange dr) z)) = Some (F1 z)) /\
    covariance 2 (deviation l_ds F1 0 0) (deviation l_sf F1 0 0) < covariance 2 (deviation l_ds F 0 1) (deviation l_sf F 0 1) < 0.
Proof. exact C104_refuted_l. Qed.
Print Assumptions C104_two_parameters_refuted.

(* a batch of two examples with two UTs each, one of them indoors, taken in the other order; and its second UT alone *)
Example C104_example : forall sc al dr z, constructed sc ->
  let ut := T 2 2 (fun b u => V3 (600000 + 1000 * INR b + 100 * INR u) 0 1.5) in
  let bs := T 2 1 (fun b _ => V3 (50 * INR b) 0 600000) in
  let o n := T 2 n (fun _ _ => V3 0 0 0) in
  snd (chan_set_topology sc al (chan_init sc) (full_args ut bs (o 2%nat) (o 1%nat) (o 2%nat) (T 2 2 (fun b u => Nat.eqb b u)) None) dr z) = Ok tt /\
  picks (t_num ut) 2 exchange /\ picks (t_num ut) 1 exchange.
Proof.
  intros sc al dr z Hc ut bs o. split; [exact (batch_example_l sc al dr z Hc)|]. unfold picks, exchange. cbn [ut t_num].
  repeat split; intros; lia.
Qed.
