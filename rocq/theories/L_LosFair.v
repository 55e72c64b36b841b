(* Lemmas for C110: how often a link is LoS. *)
From Coq Require Import Reals String List Bool Arith Lia Lra.
From Verif Require Import M_Base L_Base M_Params S_Config L_Params L_Config M_Geometry M_Scenario S_Topology L_Scenario L_Fresh L_Topology L_Draw S_LosFair.
Import ListNotations.
Open Scope string_scope.
Open Scope list_scope.
Open Scope R_scope.

Lemma los_draws_scenario sc st a dr f st1 : set_topology sc st a dr = (st1, Ok true) ->
  exists st2, set_topology sc st a (with_los_draws f dr) = (st2, Ok true) /\ s_in st2 = s_in st1 /\ s_req_los st2 = s_req_los st1.
Proof.
  intros H. destruct (complete_call st a) eqn:C.
  2:{ destruct (set_topology_incomplete sc st a dr C) as (m & E). rewrite H in E. discriminate. }
  destruct (set_topology_complete sc st a dr C) as (ut & bs & ind & E1 & E2 & E3 & E).
  destruct (set_topology_complete sc st a (with_los_draws f dr) C) as (ut' & bs' & ind' & E1' & E2' & E3' & E').
  assert (ut' = ut) by congruence. assert (bs' = bs) by congruence. assert (ind' = ind) by congruence. subst ut' bs' ind'.
  rewrite H in E. rewrite E'. destruct (need_for_update a); [|discriminate].
  unfold update_topology in E |- *. cbn [dr_indoor dr_los dr_z_los dr_z_nlos with_los_draws].
  destruct (distance_2d ut bs); [|discriminate]. destruct (distance_3d_and_angles _ ut bs); [|discriminate].
  destruct (sample_indoor _ _ _ _ _); [|discriminate]. destruct (pv <- los_probability sc;; num_of pv); [|discriminate].
  unfold compute_lsp_stat, compute_pathlosses in E |- *.
  destruct (link_column sc true); cbn [bind] in *; [|discriminate]. destruct (link_column sc false); cbn [bind] in *; [|discriminate].
  destruct (clutter_loss sc) as [clv|]; cbn [bind] in *; [|discriminate]. destruct (num_of clv); cbn [bind] in *; [|discriminate].
  destruct (sigma_sf_los sc) as [slv|]; cbn [bind] in *; [|discriminate]. destruct (num_of slv); cbn [bind] in *; [|discriminate].
  destruct (sigma_sf_nlos sc) as [snv|]; cbn [bind] in *; [|discriminate]. destruct (num_of snv); cbn [bind] in *; [|discriminate].
  injection E as ->. eexists. split; [reflexivity|]. split; reflexivity.
Qed.

(* ---- counting ---- *)
Lemma least_above x n : exists m, (m <= n)%nat /\ (forall k, (k < m)%nat -> INR k < x) /\ ((m < n)%nat -> x <= INR m).
Proof.
  induction n as [|n (m & A & B & C)]; [exists 0%nat; repeat split; intros; lia|].
  destruct (le_lt_eq_dec _ _ A) as [L | E].
  - exists m. repeat split; [lia | exact B | intros _; apply C; exact L].
  - subst m. destruct (Rlt_le_dec (INR n) x) as [L | G].
    + exists (S n). repeat split; [lia | | lia]. intros k Hk. destruct (Nat.eq_dec k n) as [-> | N]; [exact L | apply B; lia].
    + exists n. repeat split; [lia | exact B | intros _; exact G].
Qed.

Lemma threshold p N : (0 < N)%nat -> 0 <= p <= 1 -> exists m, (m <= N)%nat /\ Rabs (INR m / INR N - p) < / INR N /\
  forall k, (k < N)%nat -> (INR k / INR N < p <-> (k < m)%nat).
Proof.
  intros HN Hp. assert (P : 0 < INR N) by (apply lt_0_INR; exact HN). assert (I := Rinv_0_lt_compat _ P).
  destruct (least_above (p * INR N) N) as (m & A & B & C). exists m. split; [exact A|].
  assert (U : p * INR N <= INR m).
  { destruct (le_lt_eq_dec _ _ A) as [L | ->]; [exact (C L) | nra]. }
  assert (D : INR m < p * INR N + 1).
  { destruct m as [|m]; [cbn [INR]; nra|]. specialize (B m ltac:(lia)). rewrite S_INR. lra. }
  split.
  - replace (INR m / INR N - p) with ((INR m - p * INR N) * / INR N) by (field; lra).
    rewrite Rabs_mult, (Rabs_right (/ INR N)), (Rabs_right (INR m - p * INR N)) by lra.
    rewrite <- (Rmult_1_l (/ INR N)) at 2. apply Rmult_lt_compat_r; lra.
  - intros k Hk. split.
    + intros H. apply INR_lt. assert (INR k < p * INR N).
      { apply (Rmult_lt_compat_r (INR N)) in H; [|exact P]. unfold Rdiv in H. rewrite Rmult_assoc, Rinv_l in H; lra. }
      lra.
    + intros H. specialize (B k H). apply (Rmult_lt_reg_r (INR N)); [exact P|]. unfold Rdiv. rewrite Rmult_assoc, Rinv_l; lra.
Qed.

Lemma nodup_extend (S : list nat) (W : list (list nat)) : NoDup S -> NoDup W -> NoDup (flat_map (fun k => map (cons k) W) S).
Proof.
  intros HS HW. induction HS as [|a S NI HS IH]; cbn [flat_map]; [constructor|]. apply nodup_app; [| exact IH |].
  - apply FinFun.Injective_map_NoDup; [|exact HW]. intros x y E. injection E. trivial.
  - intros w H1 H2. apply in_map_iff in H1. destruct H1 as (x & <- & _). apply in_flat_map in H2. destruct H2 as (k & K & H2).
    apply in_map_iff in H2. destruct H2 as (y & E & _). injection E as -> _. contradiction.
Qed.

Lemma length_extend (S : list nat) (W : list (list nat)) : length (flat_map (fun k => map (cons k) W) S) = (length S * length W)%nat.
Proof. induction S as [|a S IH]; cbn [flat_map length]; [reflexivity|]. rewrite app_length, map_length, IH. lia. Qed.

Lemma count_words N m want : (m <= N)%nat ->
  holds_for N (length want) (favourable N m want) (fun w => map (fun k => Nat.ltb k m) w = want).
Proof.
  intros Hm. induction want as [|x r (W & ND & LW & IN)].
  - exists [[]]. split; [repeat constructor; intros []|]. split; [reflexivity|]. intros w. split.
    + intros [<- | []]. repeat split. constructor.
    + intros [[L _] _]. destruct w; [left; reflexivity | discriminate].
  - set (S := if x then seq 0 m else seq m (N - m)).
    assert (HS : forall k, In k S <-> (k < N)%nat /\ Nat.ltb k m = x).
    { intros k. unfold S. destruct x; rewrite in_seq, ?Nat.ltb_lt, ?Nat.ltb_ge; lia. }
    exists (flat_map (fun k => map (cons k) W) S). split; [apply nodup_extend; [unfold S; destruct x; apply seq_NoDup | exact ND]|]. split.
    + rewrite length_extend, LW. cbn [favourable]. f_equal. unfold S. destruct x; apply seq_length.
    + intros w. rewrite in_flat_map. split.
      * intros (k & K & H). apply in_map_iff in H. destruct H as (v & <- & V). apply IN in V. destruct V as [[V1 V2] V3].
        apply HS in K. destruct K as [K1 K2]. split; [split; cbn [length]; [congruence | constructor; assumption]|]. cbn [map]. congruence.
      * intros [[L F] E]. destruct w as [|k v]; [discriminate|]. cbn [map] in E. injection E as E1 E2. injection L as L.
        inversion F as [|? ? F1 F2]. subst. exists k. split; [apply HS; split; [assumption | reflexivity]|]. apply in_map. apply IN. repeat split; assumption.
Qed.

Lemma handed_map N ls w : NoDup ls -> length w = length ls ->
  map (fun l => match l with (b, s, u) => handed N ls w b s u end) ls = map (fun k => INR k / INR N) w.
Proof.
  intros H. revert w. induction H as [|[[b s] u] ls NI H IH]; intros [|k w] L; try discriminate; [reflexivity|].
  cbn [map handed]. rewrite !Nat.eqb_refl. cbn [andb]. f_equal. injection L as L. rewrite <- (IH w L).
  apply map_ext_in. intros [[b' s'] u'] I.
  destruct (Nat.eqb b' b && Nat.eqb s' s && Nat.eqb u' u)%bool eqn:E; [|reflexivity].
  apply andb_true_iff in E. destruct E as [E E3]. apply andb_true_iff in E. destruct E as [E1 E2].
  apply Nat.eqb_eq in E1, E2, E3. subst. contradiction.
Qed.

Lemma map_bool_ext {A B} (f : A -> bool) (g : B -> bool) l m (F : A -> R) (G : B -> R) (Q : R -> Prop) :
  (forall a, In a l -> f a = true <-> Q (F a)) -> (forall b, In b m -> g b = true <-> Q (G b)) -> map F l = map G m -> map f l = map g m.
Proof.
  revert m. induction l as [|a l IH]; intros [|b m] HF HG E; try discriminate; [reflexivity|]. cbn [map] in *. injection E as E1 E2.
  f_equal; [| apply IH; [intros; apply HF; right; assumption | intros; apply HG; right; assumption | exact E2]].
  specialize (HF a ltac:(left; reflexivity)). specialize (HG b ltac:(left; reflexivity)). rewrite E1 in HF.
  destruct (f a), (g b); try reflexivity; exfalso; [destruct HF as [X _]; destruct HG as [_ Y]; specialize (Y (X eq_refl)); discriminate |
    destruct HF as [_ Y]; destruct HG as [X _]; specialize (Y (X eq_refl)); discriminate].
Qed.

(* C110 *)
Lemma C110_joint_l : forall sc st a dr st' ind, constructed sc -> set_topology sc st a dr = (st', Ok true) -> s_req_los st' = None ->
  s_in st' = Some ind -> forall N, (0 < N)%nat -> exists p c,
  documented_value (sc_env sc) (sc_fc sc) (sc_dir sc) (sc_elev sc) true "LoS_p" (Fin p) /\
  (c <= N)%nat /\ Rabs (INR c / INR N - p) < / INR N /\
  forall ls want, NoDup ls -> length want = length ls -> (forall b s u, In (b, s, u) ls -> t_at ind b u = false) ->
    holds_for N (length ls) (favourable N c want) (fun w => exists st2 los,
      set_topology sc st a (with_los_draws (handed N ls w) dr) = (st2, Ok true) /\ s_los st2 = Some los /\
      map (fun l => match l with (b, s, u) => los b s u end) ls = want).
Proof.
  intros sc st a dr st' ind Hc H Hr Hi N HN.
  destruct (los_semantics sc st a dr st' Hc H) as (los0 & ind0 & p & _ & I0 & P & _).
  assert (R : 0 <= p <= 1).
  { destruct Hc as (e & fc & ut & bs & dir & el & pl & sh & dop & E). assert (E0 := E).
    destruct (init_accepted _ _ _ _ _ _ _ _ _ _ E0) as (_ & E1 & E2 & E3 & E4 & _). rewrite E1, E2, E3, E4 in P.
    destruct (table_sanity _ _ _ _ _ _ _ _ _ _ E true _ _ P) as (_ & _ & _ & X & _).
    destruct (X eq_refl) as (r & Y & Z). injection Y as <-. exact Z. }
  destruct (threshold p N HN R) as (c & C1 & C2 & C3). exists p, c. split; [exact P|]. split; [exact C1|]. split; [exact C2|].
  intros ls want ND LW OUT. destruct (count_words N c want C1) as (W & W1 & W2 & W3).
  exists W. split; [exact W1|]. split; [exact W2|]. intros w. rewrite W3, LW.
  assert (K : outcome N (length ls) w -> exists st2 los, set_topology sc st a (with_los_draws (handed N ls w) dr) = (st2, Ok true) /\
     s_los st2 = Some los /\ map (fun l => match l with (b, s, u) => los b s u end) ls = map (fun k => Nat.ltb k c) w).
  { intros [L F]. destruct (los_draws_scenario sc st a dr (handed N ls w) st' H) as (st2 & T1 & T2 & T3).
    destruct (los_semantics sc st a _ st2 Hc T1) as (los & ind2 & p2 & S1 & S2 & S3 & S4).
    assert (ind2 = ind) by congruence. subst ind2.
    assert (p2 = p).
    { destruct Hc as (e & fc & ut & bs & dir & el & pl & sh & dop & E).
      destruct (init_accepted _ _ _ _ _ _ _ _ _ _ E) as (_ & E1 & E2 & E3 & E4 & _). rewrite E1, E2, E3, E4 in P, S3.
      apply Rle_antisym; eapply (losp_monotone e fc ut bs dir el el); try eassumption; lra. }
    subst p2. exists st2, los. split; [exact T1|]. split; [exact S1|].
    apply (map_bool_ext _ _ _ _ (fun l => match l with (b, s, u) => handed N ls w b s u end) (fun k => INR k / INR N) (fun x => x < p)).
    - intros [[b s] u] I. rewrite S4, T3, Hr. cbn [with_los_draws dr_los]. specialize (OUT b s u I). tauto.
    - intros k I. rewrite Nat.ltb_lt. rewrite Forall_forall in F. specialize (F k I). symmetry. apply C3. exact F.
    - apply handed_map; assumption. }
  split.
  - intros [O E]. split; [exact O|]. destruct (K O) as (st2 & los & K1 & K2 & K3). exists st2, los. rewrite <- E. auto.
  - intros [O (st2 & los & K1 & K2 & K3)]. split; [exact O|]. destruct (K O) as (st3 & los3 & J1 & J2 & J3).
    assert (st3 = st2) by congruence. subst st3. assert (los3 = los) by congruence. subst los3. congruence.
Qed.

Lemma C110_elevation_l : forall e fc ut bs dir el1 el2 pl sh dop sc1 sc2 st1 st2 a dr st1' st2' los1 los2 ind,
  scenario_init e fc ut bs dir el1 pl sh dop = Ok sc1 -> scenario_init e fc ut bs dir el2 pl sh dop = Ok sc2 -> el1 <= el2 ->
  set_topology sc1 st1 a dr = (st1', Ok true) -> set_topology sc2 st2 a dr = (st2', Ok true) ->
  s_req_los st1' = None -> s_req_los st2' = None -> s_in st1' = Some ind -> s_in st2' = Some ind ->
  s_los st1' = Some los1 -> s_los st2' = Some los2 -> forall b s u, los1 b s u = true -> los2 b s u = true.
Proof.
  intros e fc ut bs dir el1 el2 pl sh dop sc1 sc2 st1 st2 a dr st1' st2' los1 los2 ind H1 H2 Hel T1 T2 R1 R2 I1 I2 L1 L2 b s u X.
  assert (C1 : constructed sc1) by (repeat eexists; exact H1). assert (C2 : constructed sc2) by (repeat eexists; exact H2).
  destruct (los_semantics _ _ _ _ _ C1 T1) as (l1 & i1 & p1 & A1 & A2 & A3 & A4).
  destruct (los_semantics _ _ _ _ _ C2 T2) as (l2 & i2 & p2 & B1 & B2 & B3 & B4).
  destruct (init_accepted _ _ _ _ _ _ _ _ _ _ H1) as (_ & E1 & E2 & E3 & E4 & _). rewrite E1, E2, E3, E4 in A3.
  destruct (init_accepted _ _ _ _ _ _ _ _ _ _ H2) as (_ & F1 & F2 & F3 & F4 & _). rewrite F1, F2, F3, F4 in B3.
  assert (M : p1 <= p2) by (eapply (losp_monotone e fc ut bs dir el1 el2); eassumption).
  assert (l1 = los1) by congruence. assert (l2 = los2) by congruence. assert (i1 = ind) by congruence. assert (i2 = ind) by congruence. subst.
  apply A4 in X. apply B4. rewrite R1 in X. rewrite R2. split; [tauto | lra].
Qed.

(* all links outdoors or not, the number of cases is that of one link when one link is looked at *)
Lemma C110_link_l : forall sc st a dr st' ind, constructed sc -> set_topology sc st a dr = (st', Ok true) -> s_req_los st' = None ->
  s_in st' = Some ind -> forall N b s u : nat, (0 < N)%nat -> t_at ind b u = false -> exists (p : R) (c : nat),
  documented_value (sc_env sc) (sc_fc sc) (sc_dir sc) (sc_elev sc) true "LoS_p" (Fin p) /\
  Rabs (INR c / INR N - p) < / INR N /\
  holds_for N 1 c (fun w => exists st2 los,
      set_topology sc st a (with_los_draws (handed N [(b, s, u)] w) dr) = (st2, Ok true) /\ s_los st2 = Some los /\ los b s u = true).
Proof.
  intros sc st a dr st' ind Hc H Hr Hi N b s u HN O. destruct (C110_joint_l sc st a dr st' ind Hc H Hr Hi N HN) as (p & c & P & C1 & C2 & J).
  exists p, c. split; [exact P|]. split; [exact C2|].
  destruct (J [(b, s, u)] [true]) as (W & W1 & W2 & W3).
  - repeat constructor. intros [].
  - reflexivity.
  - intros b' s' u' [E | []]. injection E as <- <- <-. exact O.
  - exists W. split; [exact W1|]. split; [cbn [favourable] in W2; lia|]. intros w. rewrite W3. cbn [length].
    split; intros [X (st2 & los & Y1 & Y2 & Y3)]; (split; [exact X|]; exists st2, los; split; [exact Y1|]; split; [exact Y2|]).
    + cbn [map] in Y3. injection Y3. trivial.
    + cbn [map]. congruence.
Qed.

(* ---- two outdoor UTs and one indoors ---- *)
Definition fair_args : topo_args :=
  {| a_ut_loc := Some (T 1 3 (fun b u => V3 (100 + 200 * INR u) 0 1.5)); a_bs_loc := Some (T 1 1 (fun _ _ => V3 0 0 600000));
     a_ut_ori := Some (T 1 3 (fun _ _ => V3 0 0 0)); a_bs_ori := Some (T 1 1 (fun _ _ => V3 0 0 0));
     a_ut_vel := Some (T 1 3 (fun _ _ => V3 0 0 0)); a_in := Some (T 1 3 (fun _ u => Nat.eqb u 2)); a_los := None;
     a_weather := no_weather; a_doppler := None |}.

Lemma fair_ok sc : constructed sc -> exists st', set_topology sc (init_state sc) fair_args mixed_draws = (st', Ok true) /\
  s_req_los st' = None /\ s_in st' = Some (T 1 3 (fun _ u => Nat.eqb u 2)).
Proof.
  intros Hc. assert (Ha := constructed_accepted sc Hc).
  assert (E : exists st', set_topology sc (init_state sc) fair_args mixed_draws = (st', Ok true)).
  { unfold set_topology. cbn [fair_args a_ut_loc a_bs_loc a_in a_ut_ori a_bs_ori a_ut_vel given orb negb].
    unfold need_for_update. cbn [fair_args a_ut_loc given orb].
    cbn [store_args s_ut_loc s_bs_loc s_in fair_args a_ut_loc a_bs_loc a_in or_else].
    apply update_succeeds; [exact Ha | reflexivity | reflexivity | cbn; lia | reflexivity | reflexivity]. }
  destruct E as (st' & E).
  destruct (step_cases _ _ _ _ _ _ Ha E) as [(_ & _ & [m Hm]) | (_ & _ & S & _)]; [discriminate|].
  destruct S as (S1 & S2 & _ & _ & _ & S6 & S7 & _).
  cbn [store_args fair_args a_ut_loc a_bs_loc a_in a_los or_else s_ut_loc s_bs_loc s_in s_req_los init_state] in S1, S2, S6, S7.
  exists st'. auto.
Qed.

Lemma C110_example_l : exists sc st' ind ls, constructed sc /\ set_topology sc (init_state sc) fair_args mixed_draws = (st', Ok true) /\
  s_req_los st' = None /\ s_in st' = Some ind /\ t_at ind 0%nat 2%nat = true /\
  ls = [(0, 0, 0); (0, 0, 1)]%nat /\ NoDup ls /\ (forall b s u, In (b, s, u) ls -> t_at ind b u = false) /\
  favourable 10 3 [true; false] = 21%nat.
Proof.
  destruct example_constructed as (sc & Hc & _). destruct (fair_ok sc Hc) as (st' & E & S7 & S6).
  exists sc, st'. eexists. exists [(0, 0, 0); (0, 0, 1)]%nat. split; [exact Hc|]. split; [exact E|]. split; [exact S7|]. split; [exact S6|].
  split; [reflexivity|]. split; [reflexivity|]. split; [repeat constructor; cbn [In]; [intros [K | []]; discriminate | intros []]|].
  split; [|reflexivity]. intros b s u [K | [K | []]]; injection K as <- <- <-; reflexivity.
Qed.

Lemma C110_elevation_example_l : exists sc1 sc2 st1' st2' los1 los2 ind,
  scenario_init Urban 2e9 ex_array ex_array "downlink" 20 true true true = Ok sc1 /\
  scenario_init Urban 2e9 ex_array ex_array "downlink" 70 true true true = Ok sc2 /\
  set_topology sc1 (init_state sc1) fair_args mixed_draws = (st1', Ok true) /\
  set_topology sc2 (init_state sc2) fair_args mixed_draws = (st2', Ok true) /\
  s_req_los st1' = None /\ s_req_los st2' = None /\ s_in st1' = Some ind /\ s_in st2' = Some ind /\
  s_los st1' = Some los1 /\ s_los st2' = Some los2.
Proof.
  assert (X : forall el, 10 <= el <= 90 -> exists sc, scenario_init Urban 2e9 ex_array ex_array "downlink" el true true true = Ok sc).
  { intros el Hel. assert (H : is_ok (scenario_init Urban 2e9 ex_array ex_array "downlink" el true true true)).
    { apply construct_iff. unfold supported_config, in_S_band; cbn. repeat split; auto; lra. }
    exact H. }
  destruct (X 20 ltac:(lra)) as (sc1 & H1). destruct (X 70 ltac:(lra)) as (sc2 & H2).
  assert (C1 : constructed sc1) by (repeat eexists; exact H1). assert (C2 : constructed sc2) by (repeat eexists; exact H2).
  destruct (fair_ok sc1 C1) as (st1 & A1 & A2 & A3). destruct (fair_ok sc2 C2) as (st2 & B1 & B2 & B3).
  destruct (los_semantics _ _ _ _ _ C1 A1) as (l1 & i1 & p1 & L1 & _). destruct (los_semantics _ _ _ _ _ C2 B1) as (l2 & i2 & p2 & L2 & _).
  exists sc1, sc2, st1, st2, l1, l2. eexists. split; [exact H1|]. split; [exact H2|]. split; [exact A1|]. split; [exact B1|].
  split; [exact A2|]. split; [exact B2|]. split; [exact A3|]. split; [exact B3|]. split; assumption.
Qed.
