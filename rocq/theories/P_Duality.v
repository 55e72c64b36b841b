(* Property C66 from 600 km on: what exchanging the link ends changes. *)
From Coq Require Import Reals String List Bool Arith Lia Lra.
From Verif Require Import M_Base M_Params S_Config M_Geometry M_Pathloss M_Scenario S_Topology L_Fresh M_Rays M_Antenna M_Cplx M_Coeff S_Coeff
  L_Coeff M_Channel S_Channel L_Topology L_Duality.
Import ListNotations.
Open Scope string_scope.
Open Scope list_scope.
Open Scope R_scope.

(* C66 from 600 km on: in a scattered ray the Faraday rotation acts on the transmit field; exchanging the link ends makes it act on the other field. *)
Theorem C66_exchange_law :
  forall g T y time ph c r u s t,
  600000 <= lt_bs_height T ->
  let a := 108 / sq (cg_fc g / 1e9) / 180 * PI in
  let turned f := (cos a * fst f - sin a * snd f, sin a * fst f + cos a * snd f) in
  let rx := antenna_field (cg_rx g) (lt_rx_ori T) (r_zoa y c r) (r_aoa y c r) u in
  let tx := antenna_field (cg_tx g) (lt_tx_ori T) (r_zod y c r) (r_aod y c r) s in
  let M := phase_matrix (r_xpr y c r) (ph c r) in
  let through f f' :=
    cadd (cmul (creal (fst f)) (cadd (cmul (m00 M) (creal (fst f'))) (cmul (m01 M) (creal (snd f')))))
         (cmul (creal (snd f)) (cadd (cmul (m10 M) (creal (fst f'))) (cmul (m11 M) (creal (snd f'))))) in
  exists k, cnorm2 k = cnorm2 (creal (sqrt (nth c (r_powers y) 0 / 20))) /\
    nlos_ray g T y time ph c r u s t = cmul k (through rx (turned tx)) /\
    nlos_ray (swap_gen g) (swap_topo T) (swap_rays y) time (swap_phases ph) c r s u t = cmul k (through (turned rx) tx).
Proof. exact exchange_law. Qed.
Print Assumptions C66_exchange_law.

(* C66 fails from 600 km on, in every downlink configuration: the uplink channel over the same link, rays and (exchanged) phases differs from the downlink channel. *)
Theorem C66_channel_refuted :
  forall srt srtd sc,
  valid_argsort srt -> valid_argsort_desc srtd -> constructed sc -> sc_dir sc = "downlink" ->
  exists a z c1 fs d down up bs,
    chan_set_topology sc false (chan_init sc) a no_draws z = (c1, Ok tt) /\
    s_bs_loc (c_st c1) = Some bs /\ vz (t_at bs 0%nat 0%nat) = 600000 /\
    chan_call srt srtd sc omni_array omni_array false c1 fs d = Ok down /\
    chan_call srt srtd (with_direction "uplink" sc) omni_array omni_array false c1 fs (exchanged_phases d) = Ok up /\
    ~ (forall p, o_h up 0 0 0 0 0 p 0 = o_h down 0 0 0 0 0 p 0)%nat.
Proof. exact duality_refuted. Qed.
Print Assumptions C66_channel_refuted.

(* the hypotheses are met: a downlink scenario and a link at 600 km *)
Example C66_example : exists sc T, constructed sc /\ sc_dir sc = "downlink" /\ 600000 <= lt_bs_height T.
Proof. exact downlink_example. Qed.
