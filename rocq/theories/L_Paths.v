(* The paths of a link, from set_topology to the output of the channel. *)
From Coq Require Import Reals String List Bool Arith Lia Lra ZArith Permutation Sorting.Sorted.
From Verif Require Import M_Base L_Base M_Params S_Config L_Params L_Config M_Geometry M_Pathloss M_Scenario
  M_Lsp S_Linear L_Linear S_Lsp S_Topology L_Pathloss L_Trig L_Geometry L_Scenario L_Fresh L_Topology L_Corr L_Lsp
  S_Pathloss L_Loss M_Rays S_Rays L_Rays L_RaysEx M_Antenna M_Cplx M_Coeff S_Coeff L_Rotation L_Coeff M_Channel S_Channel L_Chol L_Channel L_Link.
Import ListNotations.
Open Scope string_scope.
Open Scope list_scope.
Open Scope R_scope.

Lemma cir_paths srt srtd g T k y fs cds ph : valid_argsort srt -> valid_argsort_desc srtd -> cg_sub g = true ->
  length (r_powers y) = length (r_delays y) -> (2 <= length (r_delays y))%nat -> 0 <= cds ->
  nth 0 (r_delays y) 0 = 0 -> (forall t, In t (r_delays y) -> 0 <= t) ->
  let '(h, d) := cir srt srtd g T k y fs cds ph in
  length h = (length (r_delays y) + 4)%nat /\ length d = (length (r_delays y) + 4)%nat /\
  StronglySorted Rle d /\ nth 0 d 0 = 0.
Proof.
  intros V VD Sb EL N2 Hc H0 Hp.
  assert (A := C28_l srt srtd g (with_los false T) k y fs cds ph V VD Sb eq_refl EL N2).
  assert (B := C29_l srt srtd g (with_los false T) k y fs cds ph V VD Sb eq_refl EL N2).
  unfold cir, step_11 in *.
  change (nlos_ray g (with_los false T) y (fun i => INR i / fs) ph) with (nlos_ray g T y (fun i => INR i / fs) ph) in *.
  destruct (reduce_nlos srt srtd (cg_sub g) (nlos_ray g T y (fun i => INR i / fs) ph) (r_powers y) (r_delays y) cds) as [h d].
  cbn [lt_los with_los] in A, B. destruct A as (A1 & A2 & _). destruct B as (L & c1 & c2 & TS & P & _ & ED & S).
  split; [|split; [exact A2|split; [exact S|]]].
  - destruct (lt_los T); [|exact A1]. unfold combine_los. destruct h as [|h0 rest]; [exact A1|]. cbn [map length]. cbn [length] in A1.
    rewrite map_length. exact A1.
  - assert (G : forall x, In x d -> 0 <= x).
    { intros x Hx. rewrite ED in Hx. apply in_map_iff in Hx. destruct Hx as (p & <- & Hq).
      assert (O : 0 <= pt_offset p).
      { apply (Permutation_in _ P) in Hq. apply in_app_or in Hq. destruct Hq as [Hq|Hq];
          [|apply in_app_or in Hq; destruct Hq as [Hq|Hq]].
        - cbn in Hq. intuition (subst; cbn; lra).
        - cbn in Hq. intuition (subst; cbn; lra).
        - apply in_map_iff in Hq. destruct Hq as (c & <- & _). cbn. lra. }
      assert (0 <= nth (pt_cluster p) (r_delays y) 0).
      { destruct (le_lt_dec (length (r_delays y)) (pt_cluster p)) as [Hl|Hl]; [rewrite nth_overflow by exact Hl; lra|].
        apply Hp, nth_In, Hl. }
      assert (0 <= pt_offset p * cds) by (apply Rmult_le_pos; assumption). lra. }
    assert (Z : In 0 d).
    { assert (Q : exists p, In p L /\ pt_cluster p = 0%nat /\ pt_offset p = 0).
      { destruct (Nat.eq_dec c1 0) as [->|N1].
        - exists (Path 0 [0;1;2;3;4;5;6;7;18;19]%nat 0). split; [|split; reflexivity].
          apply (Permutation_in _ (Permutation_sym P)). apply in_or_app. left. left. reflexivity.
        - destruct (Nat.eq_dec c2 0) as [->|N2'].
          + exists (Path 0 [0;1;2;3;4;5;6;7;18;19]%nat 0). split; [|split; reflexivity].
            apply (Permutation_in _ (Permutation_sym P)). apply in_or_app. right. apply in_or_app. left. left. reflexivity.
          + exists (whole_cluster 0). split; [|split; reflexivity].
            apply (Permutation_in _ (Permutation_sym P)). apply in_or_app. right. apply in_or_app. right.
            apply in_map, filter_In. split; [apply in_seq; lia|].
            rewrite (proj2 (Nat.eqb_neq 0 c1)) by lia. rewrite (proj2 (Nat.eqb_neq 0 c2)) by lia. reflexivity. }
      destruct Q as (p & Q1 & Q2 & Q3). rewrite ED. apply in_map_iff. exists p. split; [|exact Q1]. rewrite Q2, Q3, H0. lra. }
    destruct d as [|x d]; [reflexivity|]. cbn [nth]. destruct Z as [Z|Z]; [exact Z|].
    apply Rle_antisym; [|apply G; left; reflexivity].
    inversion S as [|? ? _ F]; subst. rewrite Forall_forall in F. apply F, Z.
Qed.

Lemma nth_error_None_len {A B} (l : list A) (m : list B) p : length l = length m -> nth_error l p = None <-> nth_error m p = None.
Proof. intros E. rewrite !nth_error_None, E. tauto. Qed.

Lemma C67_l srt srtd ua ba sc al ops a dr z fs d : valid_argsort srt -> valid_argsort_desc srtd -> constructed sc ->
  settled sc al ops a dr z ->
  let c := chan_run sc al (chan_init sc) ops in
  exists out lsps ind los n1 n2,
    chan_call srt srtd sc ua ba al c fs d = Ok out /\
    (if al then lsp_sampler c (cd_lsp d) = Ok lsps else c_lsp c = Some lsps) /\
    s_in (c_st c) = Some ind /\ s_los (c_st c) = Some los /\
    (forall l, documented_value (sc_env sc) (sc_fc sc) (sc_dir sc) (sc_elev sc) l "numClusters"
                 (Fin (INR (if l then n1 else n2)))) /\
    forall b s u, t_at ind b u = false -> (los b s u = true -> Rpower 10 (- 6.3) <= l_k (lsps b s u)) ->
      exists D, length D = (Nat.max n1 n2 + 4)%nat /\ StronglySorted Rle D /\ nth 0 D 0 = 0 /\
        forall p, link_delay (sc_dir sc) out b s u p = nth_error D p /\
          forall is iu t, link_coefficient (sc_dir sc) out b s is u iu p t = None <-> (Nat.max n1 n2 + 4 <= p)%nat.
Proof.
  intros V VD Hc Hs c. subst c.
  destruct (call_defined srt srtd ua ba sc al ops a dr z fs d Hc Hs) as [out O].
  destruct (settled_state _ _ _ _ _ _ Hs) as (c0 & st' & ut & bs0 & Cm & Sm & Lx & Ls & mask & ST & _ & _ & _ & _ & _ & _ & EM & SAME & _ & _ & MK & _).
  cbv zeta in SAME, MK. set (c := chan_run sc al (chan_init sc) ops) in *.
  destruct SAME as (S1 & S2 & S3 & S4 & S5 & S6 & S7 & _).
  destruct (C31_axes_l _ _ _ _ _ _ _ _ _ _ O) as (lsps & mask' & rr & vel & uo & bo & bs & g & los & ls & pl & D1 & D2 & D3 & D4 & D5 & D6 & D7 & D8 & D9 & D10 & D11 & D12 & D13).
  assert (mask' = mask) by congruence. subst mask'.
  assert (G : gen_rays srt st' mask lsps (cd_rays d) = Ok rr).
  { rewrite <- D3. unfold gen_rays. rewrite S6, S5, S4, S3, S2. reflexivity. }
  destruct (C23_l _ _ _ _ _ _ srt lsps _ rr Hc ST EM G) as (los3 & ind & n1 & n2 & F1 & F2 & F3 & F4).
  assert (los3 = los) by congruence. subst los3.
  destruct (C22_l _ _ _ _ _ _ srt lsps _ rr Hc ST EM G) as (los4 & m1 & m2 & G1 & G2 & G3).
  assert (los4 = los) by congruence. subst los4.
  assert (EMM : m1 = n1 /\ m2 = n2).
  { assert (Q1 := documented_value_fun _ _ _ _ _ _ _ _ (F3 true) (G2 true)). assert (Q2 := documented_value_fun _ _ _ _ _ _ _ _ (F3 false) (G2 false)).
    injection Q1 as Q1. injection Q2 as Q2. apply INR_eq in Q1, Q2. auto. }
  destruct EMM as [-> ->].
  destruct (make_ready _ _ _ _ _ Hc ST) as (ls9 & los9 & g9 & ind9 & bs9 & mask9 & RD).
  assert (ls9 = ls) by (assert (E := rd_ls _ _ _ _ _ _ _ _ RD); congruence). subst ls9.
  assert (N2 : (2 <= Nat.max n1 n2)%nat).
  { destruct (rd_nc _ _ _ _ _ _ _ _ RD true) as [NB ND].
    assert (Q1 := documented_value_fun _ _ _ _ _ _ _ _ (F3 true) ND). injection Q1 as Q1. apply INR_eq in Q1. lia. }
  exists out, lsps, ind, los, n1, n2. split; [exact O|]. split; [exact D1|]. split; [congruence|]. split; [congruence|].
  split; [exact F3|]. intros b s u Hi HK.
  destruct (F4 b s u Hi HK) as (y & Y & LP & _). destruct (G3 b s u y Y HK) as (LD & _ & Z0 & NN & _).
  specialize (D13 b s u). cbv zeta in D13. rewrite Y in D13.
  assert (CD : 0 <= lp_cDS (ls_col ls (los b s u)) * 1e-9).
  { destruct (rd_col _ _ _ _ _ _ _ _ RD (los b s u)) as [_ GC]. assert (Q := gc_cDS _ _ GC). lra. }
  destruct (String.eqb (sc_dir sc) "uplink") eqn:ED.
  - assert (P := cir_paths srt srtd (swap_gen (down_arrays sc ua ba)) (swap_topo (down_link sc (c_st c) vel uo bo bs g los (cd_dir d) b s u))
      (l_k (lsps b s u)) (swap_rays y) fs _ (cd_phase d b u s) V VD eq_refl ltac:(cbn [swap_rays r_powers r_delays]; congruence)
      ltac:(cbn [swap_rays r_delays]; lia) CD Z0 NN).
    destruct (cir srt srtd (swap_gen (down_arrays sc ua ba)) (swap_topo (down_link sc (c_st c) vel uo bo bs g los (cd_dir d) b s u))
      (l_k (lsps b s u)) (swap_rays y) fs (lp_cDS (ls_col ls (los b s u)) * 1e-9) (cd_phase d b u s)) as [h D].
    destruct P as (P1 & P2 & P3 & P4). cbn [swap_rays r_delays fst snd] in *. exists D. rewrite <- LD.
    split; [exact P2|]. split; [exact P3|]. split; [exact P4|]. intros p. split; [apply (D13 0 0 p 0)%nat|].
    intros is iu t. destruct (D13 is iu p t) as [_ Q]. rewrite Q, <- P1, <- nth_error_None. destruct (nth_error h p); cbn; split; congruence.
  - assert (P := cir_paths srt srtd (down_arrays sc ua ba) (down_link sc (c_st c) vel uo bo bs g los (cd_dir d) b s u)
      (l_k (lsps b s u)) y fs _ (cd_phase d b s u) V VD eq_refl ltac:(congruence) ltac:(lia) CD Z0 NN).
    destruct (cir srt srtd (down_arrays sc ua ba) (down_link sc (c_st c) vel uo bo bs g los (cd_dir d) b s u)
      (l_k (lsps b s u)) y fs (lp_cDS (ls_col ls (los b s u)) * 1e-9) (cd_phase d b s u)) as [h D].
    destruct P as (P1 & P2 & P3 & P4). cbn [fst snd] in *. exists D. rewrite <- LD.
    split; [exact P2|]. split; [exact P3|]. split; [exact P4|]. intros p. split; [apply (D13 0 0 p 0)%nat|].
    intros is iu t. destruct (D13 is iu p t) as [_ Q]. rewrite Q, <- P1, <- nth_error_None. destruct (nth_error h p); cbn; split; congruence.
Qed.
