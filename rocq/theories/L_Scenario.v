From Coq Require Import Reals String List Bool Arith Lia Lra ZArith.
From Verif Require Import M_Base L_Base M_Params S_Config L_Params L_Config M_Geometry M_Pathloss
  M_Scenario S_Topology.
Import ListNotations.
Open Scope string_scope.
Open Scope list_scope.
Open Scope R_scope.

(* ---- classification of one call ---- *)
Definition complete_call (st : state) (a : topo_args) : bool :=
  (given (a_ut_loc a) || given (s_ut_loc st)) && (given (a_bs_loc a) || given (s_bs_loc st)) &&
  (given (a_in a) || given (s_in st)) && (given (a_ut_ori a) || given (s_ut_ori st)) &&
  (given (a_bs_ori a) || given (s_bs_ori st)) && (given (a_ut_vel a) || given (s_ut_vel st)).

Definition not_assert (r : res bool) : Prop :=
  match r with Err (AssertionError _) => False | _ => True end.

Lemma not_assert_iff r : not_assert r <-> ~ rejected r.
Proof.
  unfold not_assert, rejected. destruct r as [b | e]; [|destruct e];
  split; try tauto; try (intros _ [m H]; discriminate).
  intros H; apply H; eauto.
Qed.

Lemma num_of_not_assert v e : num_of v = Err e -> exists m, e = ValueError m.
Proof. unfold num_of. destruct (pval_ext v); [| discriminate]. intros [= <-]. eauto. Qed.

Lemma plookup_err k p e : plookup k p = Err e -> exists m, e = KeyError m.
Proof. unfold plookup. destruct (plookup_opt k p); [discriminate|]. intros [= <-]. eauto. Qed.

Lemma set_topology_incomplete sc st a dr : complete_call st a = false ->
  exists m, set_topology sc st a dr = (st, Err (AssertionError m)).
Proof.
  unfold complete_call, set_topology. intros H.
  destruct (given (a_ut_loc a) || given (s_ut_loc st)); cbn [negb andb] in *; [| eauto].
  destruct (given (a_bs_loc a) || given (s_bs_loc st)); cbn [negb andb] in *; [| eauto].
  destruct (given (a_in a) || given (s_in st)); cbn [negb andb] in *; [| eauto].
  destruct (given (a_ut_ori a) || given (s_ut_ori st)); cbn [negb andb] in *; [| eauto].
  destruct (given (a_bs_ori a) || given (s_bs_ori st)); cbn [negb andb] in *; [| eauto].
  destruct (given (a_ut_vel a) || given (s_ut_vel st)); cbn [negb andb] in *; [discriminate | eauto].
Qed.

Lemma given_or {A} (x y : option A) : given x || given y = true -> exists v, or_else x y = Some v.
Proof. destruct x as [v|], y as [v'|]; cbn; try discriminate; eauto. Qed.

Lemma set_topology_complete sc st a dr : complete_call st a = true ->
  exists ut bs ind,
    s_ut_loc (store_args st a) = Some ut /\ s_bs_loc (store_args st a) = Some bs /\
    s_in (store_args st a) = Some ind /\
    set_topology sc st a dr =
      if need_for_update a
      then update_topology sc (store_args st a) ut bs ind (set_weather (a_weather a)) dr
      else (store_args st a, Ok false).
Proof.
  unfold complete_call. rewrite !andb_true_iff. intros (((((H1 & H2) & H3) & H4) & H5) & H6).
  destruct (given_or _ _ H1) as [ut E1]. destruct (given_or _ _ H2) as [bs E2].
  destruct (given_or _ _ H3) as [ind E3].
  exists ut, bs, ind. cbn [store_args s_ut_loc s_bs_loc s_in].
  split; [exact E1|]. split; [exact E2|]. split; [exact E3|].
  unfold set_topology. rewrite H1, H2, H3, H4, H5, H6. cbn [negb].
  cbn [store_args s_ut_loc s_bs_loc s_in]. rewrite E1, E2, E3. reflexivity.
Qed.

(* ---- the update on an accepted scenario ---- *)
Lemma los_prob_ok sc : accepted sc -> exists p,
  (pv <- los_probability sc ;; num_of pv) = Ok p /\ 0 <= p <= 1 /\
  documented_value (sc_env sc) (sc_fc sc) (sc_dir sc) (sc_elev sc) true "LoS_p" (Fin p).
Proof.
  intros Ha. destruct (direct_lookups sc Ha) as (_ & _ & (v & r & H1 & H2 & H3) & _).
  exists r. rewrite H1. cbn [bind]. unfold num_of. rewrite H2. split; [reflexivity|].
  split; [exact H3|]. rewrite <- H2. exact (documented sc true "LoS_p" v Ha H1).
Qed.

Lemma lsp_stat_ok sc d2 los : accepted sc -> exists cl cn,
  link_column sc true = Ok cl /\ link_column sc false = Ok cn /\
  compute_lsp_stat sc d2 los = Ok
    {| ls_col := fun x : bool => if x then cl else cn;
       ls_mean := fun b s u i => lsp_log_mean (if los b s u then cl else cn) i;
       ls_std := fun b s u i => lsp_log_std (if los b s u then cl else cn) i;
       ls_zod_offset := fun b s u => zod_offset_of (los b s u) (d2 b s u) |}.
Proof.
  intros Ha. destruct (link_column_ok sc true Ha) as (cl & H1 & _).
  destruct (link_column_ok sc false Ha) as (cn & H2 & _).
  exists cl, cn. unfold compute_lsp_stat. rewrite H1, H2. cbn [bind]. auto.
Qed.

Lemma pathlosses_ok sc w d3 los z1 z2 : accepted sc -> exists cl sl sn,
  0 <= cl /\ 0 <= sl /\ 0 <= sn /\
  compute_pathlosses sc w d3 los z1 z2 = Ok
    {| pl_f := fun b s u => fspl (sc_fc sc) (d3 b s u);
       pl_b := fun b s u => pl_basic (los b s u) (sc_fc sc) (d3 b s u) cl
                               (sl * z1 b s u) (sn * z2 b s u);
       pl_g := fun _ _ _ => pl_gas w (sc_fc sc) (sc_elev sc);
       pl_e := fun _ _ _ => pl_entry;
       pl_s := fun _ _ _ => pl_scint w (sc_fc sc) (sc_elev sc) |}.
Proof.
  intros Ha. destruct (direct_lookups sc Ha) as (_ & _ & _ & (v1 & r1 & A1 & A2 & A3)
    & (v2 & r2 & B1 & B2 & B3) & (v3 & r3 & C1 & C2 & C3)).
  exists r1, r2, r3. split; [exact A3|]. split; [exact B3|]. split; [exact C3|].
  unfold compute_pathlosses. rewrite A1, B1, C1. cbn [bind]. unfold num_of at 1. rewrite A2.
  cbn [bind]. unfold num_of at 1. rewrite B2. cbn [bind]. unfold num_of. rewrite C2. reflexivity.
Qed.

(* the inputs are untouched by the update *)
Lemma update_inputs sc st ut bs ind w dr st' r :
  update_topology sc st ut bs ind w dr = (st', r) ->
  same_inputs st' st /\ s_weather st' = s_weather st.
Proof.
  unfold update_topology, same_inputs.
  destruct (distance_2d ut bs) as [d2 | e]; [| intros [= <- <-]; cbn; auto 10].
  destruct (distance_3d_and_angles (sc_elev sc) ut bs) as [g | e]; [| intros [= <- <-]; cbn; auto 10].
  destruct (sample_indoor d2 (g_d3d g) ut ind (dr_indoor dr)) as [i | e]; [| intros [= <- <-]; cbn; auto 10].
  destruct (pv <- los_probability sc ;; num_of pv) as [p | e]; [| intros [= <- <-]; cbn; auto 10].
  destruct (compute_lsp_stat _ _ _) as [ls | e]; [| intros [= <- <-]; cbn; auto 10].
  destruct (compute_pathlosses _ _ _ _ _ _) as [pl | e]; intros [= <- <-]; cbn; auto 10.
Qed.

Lemma update_not_assert sc st ut bs ind w dr : accepted sc ->
  not_assert (snd (update_topology sc st ut bs ind w dr)).
Proof.
  intros Ha. unfold update_topology.
  unfold distance_2d. destruct (Nat.eqb (t_batch ut) (t_batch bs)); [| cbn; auto].
  unfold distance_3d_and_angles. destruct (Nat.eqb (t_num bs) 1 && Nat.leb 1 (t_batch bs)); [| cbn; auto].
  unfold sample_indoor. destruct (Nat.eqb (t_batch ind) (t_batch ut) && Nat.eqb (t_num ind) (t_num ut));
    [| cbn; auto].
  destruct (los_prob_ok sc Ha) as (p & -> & _).
  match goal with |- context [compute_lsp_stat sc ?d ?l] =>
    destruct (lsp_stat_ok sc d l Ha) as (cl & cn & _ & _ & ->) end.
  match goal with |- context [compute_pathlosses sc ?w ?d ?l ?x ?y] =>
    destruct (pathlosses_ok sc w d l x y Ha) as (c1 & c2 & c3 & _ & _ & _ & ->) end.
  cbn. auto.
Qed.

(* one call: either rejected with the state unchanged, or the arguments are stored *)
Lemma step_cases sc st a dr st' r : accepted sc -> set_topology sc st a dr = (st', r) ->
  (complete_call st a = false /\ st' = st /\ rejected r) \/
  (complete_call st a = true /\ ~ rejected r /\ same_inputs st' (store_args st a) /\
   s_weather st' = Some (set_weather (a_weather a))).
Proof.
  intros Ha H. destruct (complete_call st a) eqn:C.
  - right. split; [reflexivity|].
    destruct (set_topology_complete sc st a dr C) as (ut & bs & ind & E1 & E2 & E3 & E).
    rewrite H in E. destruct (need_for_update a).
    + assert (N := update_not_assert sc (store_args st a) ut bs ind (set_weather (a_weather a)) dr Ha).
      rewrite <- E in N. cbn [snd] in N. split; [apply not_assert_iff, N|].
      symmetry in E. destruct (update_inputs _ _ _ _ _ _ _ _ _ E) as [I W].
      split; [exact I|]. rewrite W. reflexivity.
    + inversion E; subst. split; [intros [m Hm]; discriminate|].
      split; [unfold same_inputs; auto 10 | reflexivity].
  - left. split; [reflexivity|].
    destruct (set_topology_incomplete sc st a dr C) as (m & E). rewrite H in E.
    inversion E; subst. split; [reflexivity | exists m; reflexivity].
Qed.

(* ---- latest value wins ---- *)
Section Latest.
  Context {A : Type} (sc : scenario) (f : state -> option A) (get : topo_args -> option A).
  Context (Hrej : forall st a dr st' r, set_topology sc st a dr = (st', r) -> rejected r -> f st' = f st).
  Context (Hacc : forall st a dr st' r, set_topology sc st a dr = (st', r) -> ~ rejected r ->
            f st' = or_else (get a) (f st)).

  Lemma latest_run ops : forall st v,
    f (run sc st ops) = Some v <->
    is_latest (fun r => ~ rejected r) get (trace sc st ops) v \/
    (f st = Some v /\ forall o r, In (o, r) (trace sc st ops) -> ~ rejected r -> get (fst o) = None).
  Proof.
    induction ops as [| o ops IH]; intros st v.
    - cbn. split.
      + intros H. right. split; [exact H | intros ? ? []].
      + intros [H | [H _]]; [| exact H]. destruct H as (pre & o & r & post & E & _).
        destruct pre; discriminate.
    - cbn [run fold_left trace]. fold (run sc (step sc st o) ops). rewrite IH.
      destruct (set_topology sc st (fst o) (snd o)) as [st1 r1] eqn:E1.
      assert (Es : step sc st o = st1) by (unfold step; rewrite E1; reflexivity).
      rewrite Es. cbn [snd].
      assert (D : rejected r1 \/ ~ rejected r1).
      { destruct r1 as [b | e]; [right; intros [m Hm]; discriminate|].
        destruct e; try (right; intros [m Hm]; discriminate). left; eexists; reflexivity. }
      split.
      + intros [L | [F N]].
        * left. destruct L as (pre & o' & r & post & E & C & G & N).
          exists ((o, r1) :: pre), o', r, post. rewrite E. cbn. auto.
        * destruct D as [D | D].
          -- right. rewrite (Hrej _ _ _ _ _ E1 D) in F. split; [exact F|].
             intros o' r' [[= <- <-] | I] NR; [contradiction | exact (N o' r' I NR)].
          -- rewrite (Hacc _ _ _ _ _ E1 D) in F. destruct (get (fst o)) as [x |] eqn:G.
             ++ left. cbn in F. inversion F; subst x. exists [], o, r1, (trace sc st1 ops). cbn. auto.
             ++ right. split; [exact F|]. intros o' r' [[= <- <-] | I] NR; [exact G | exact (N o' r' I NR)].
      + intros [L | [F N]].
        * destruct L as (pre & o' & r & post & E & C & G & N).
          destruct pre as [| [o0 r0] pre]; cbn in E; inversion E; subst.
          -- right. rewrite (Hacc _ _ _ _ _ E1 C), G. split; [reflexivity | exact N].
          -- left. exists pre, o', r, post. auto.
        * right. split.
          -- destruct D as [D | D]; [rewrite (Hrej _ _ _ _ _ E1 D); exact F|].
             rewrite (Hacc _ _ _ _ _ E1 D). rewrite (N o r1 (or_introl eq_refl) D). exact F.
          -- intros o' r' I NR. exact (N o' r' (or_intror I) NR).
  Qed.
End Latest.

Ltac latest_tac Ha :=
  match goal with
  | |- forall st a dr st' r, _ -> rejected r -> _ =>
      intros st a dr st' r E R; destruct (step_cases _ _ _ _ _ _ Ha E) as [(_ & -> & _) | (_ & N & _)];
      [reflexivity | contradiction]
  | |- forall st a dr st' r, _ -> ~ rejected r -> _ =>
      intros st a dr st' r E R; destruct (step_cases _ _ _ _ _ _ Ha E) as [(_ & _ & C) | (_ & _ & I & _)];
      [contradiction | destruct I as (?&?&?&?&?&?&?&?); cbn [store_args s_ut_loc s_bs_loc s_ut_ori
         s_bs_ori s_ut_vel s_in s_req_los] in *; assumption]
  end.

Section Fields.
  Context (sc : scenario) (Ha : accepted sc).
  Lemma rej_s_ut_loc : forall st a dr st' r, set_topology sc st a dr = (st', r) -> rejected r -> s_ut_loc st' = s_ut_loc st.
  Proof. latest_tac Ha. Qed.
  Lemma acc_s_ut_loc : forall st a dr st' r, set_topology sc st a dr = (st', r) -> ~ rejected r ->
    s_ut_loc st' = or_else (a_ut_loc a) (s_ut_loc st).
  Proof. latest_tac Ha. Qed.
  Lemma rej_s_bs_loc : forall st a dr st' r, set_topology sc st a dr = (st', r) -> rejected r -> s_bs_loc st' = s_bs_loc st.
  Proof. latest_tac Ha. Qed.
  Lemma acc_s_bs_loc : forall st a dr st' r, set_topology sc st a dr = (st', r) -> ~ rejected r ->
    s_bs_loc st' = or_else (a_bs_loc a) (s_bs_loc st).
  Proof. latest_tac Ha. Qed.
  Lemma rej_s_ut_ori : forall st a dr st' r, set_topology sc st a dr = (st', r) -> rejected r -> s_ut_ori st' = s_ut_ori st.
  Proof. latest_tac Ha. Qed.
  Lemma acc_s_ut_ori : forall st a dr st' r, set_topology sc st a dr = (st', r) -> ~ rejected r ->
    s_ut_ori st' = or_else (a_ut_ori a) (s_ut_ori st).
  Proof. latest_tac Ha. Qed.
  Lemma rej_s_bs_ori : forall st a dr st' r, set_topology sc st a dr = (st', r) -> rejected r -> s_bs_ori st' = s_bs_ori st.
  Proof. latest_tac Ha. Qed.
  Lemma acc_s_bs_ori : forall st a dr st' r, set_topology sc st a dr = (st', r) -> ~ rejected r ->
    s_bs_ori st' = or_else (a_bs_ori a) (s_bs_ori st).
  Proof. latest_tac Ha. Qed.
  Lemma rej_s_ut_vel : forall st a dr st' r, set_topology sc st a dr = (st', r) -> rejected r -> s_ut_vel st' = s_ut_vel st.
  Proof. latest_tac Ha. Qed.
  Lemma acc_s_ut_vel : forall st a dr st' r, set_topology sc st a dr = (st', r) -> ~ rejected r ->
    s_ut_vel st' = or_else (a_ut_vel a) (s_ut_vel st).
  Proof. latest_tac Ha. Qed.
  Lemma rej_s_in : forall st a dr st' r, set_topology sc st a dr = (st', r) -> rejected r -> s_in st' = s_in st.
  Proof. latest_tac Ha. Qed.
  Lemma acc_s_in : forall st a dr st' r, set_topology sc st a dr = (st', r) -> ~ rejected r ->
    s_in st' = or_else (a_in a) (s_in st).
  Proof. latest_tac Ha. Qed.
  Lemma rej_s_req_los : forall st a dr st' r, set_topology sc st a dr = (st', r) -> rejected r -> s_req_los st' = s_req_los st.
  Proof. latest_tac Ha. Qed.
  Lemma acc_s_req_los : forall st a dr st' r, set_topology sc st a dr = (st', r) -> ~ rejected r ->
    s_req_los st' = or_else (a_los a) (s_req_los st).
  Proof. latest_tac Ha. Qed.
End Fields.

Definition counts_stored (r : res bool) : Prop := ~ rejected r.

Record latest_all (counts : res bool -> Prop) (h : list event) (st : state) : Prop := {
  la_ut_loc : forall v, s_ut_loc st = Some v <-> is_latest counts a_ut_loc h v;
  la_bs_loc : forall v, s_bs_loc st = Some v <-> is_latest counts a_bs_loc h v;
  la_ut_ori : forall v, s_ut_ori st = Some v <-> is_latest counts a_ut_ori h v;
  la_bs_ori : forall v, s_bs_ori st = Some v <-> is_latest counts a_bs_ori h v;
  la_ut_vel : forall v, s_ut_vel st = Some v <-> is_latest counts a_ut_vel h v;
  la_in : forall v, s_in st = Some v <-> is_latest counts a_in h v;
  la_los : forall v, s_req_los st = Some v <-> is_latest counts a_los h v }.

Lemma latest_from_init {A} sc (f : state -> option A) get ops :
  f (init_state sc) = None ->
  (forall st a dr st' r, set_topology sc st a dr = (st', r) -> rejected r -> f st' = f st) ->
  (forall st a dr st' r, set_topology sc st a dr = (st', r) -> ~ rejected r -> f st' = or_else (get a) (f st)) ->
  forall v, f (run sc (init_state sc) ops) = Some v <->
    is_latest counts_stored get (trace sc (init_state sc) ops) v.
Proof.
  intros H0 H1 H2 v. rewrite (latest_run sc f get H1 H2). split; [intros [L | [F _]] | auto].
  - exact L.
  - congruence.
Qed.

Lemma latest_stored sc ops : accepted sc ->
  latest_all counts_stored (trace sc (init_state sc) ops) (run sc (init_state sc) ops).
Proof.
  intros Ha. constructor; apply latest_from_init; try reflexivity; latest_tac Ha.
Qed.

Lemma is_latest_ext {A} (c1 c2 : res bool -> Prop) (get : topo_args -> option A) h v :
  (forall o r, In (o, r) h -> (c1 r <-> c2 r)) -> is_latest c1 get h v -> is_latest c2 get h v.
Proof.
  intros H (pre & o & r & post & E & C & G & N). exists pre, o, r, post.
  split; [exact E|]. split.
  - apply (H o); [rewrite E; apply in_or_app; right; left; reflexivity | exact C].
  - split; [exact G|]. intros o' r' I C'. apply (N o' r' I).
    apply (H o'); [rewrite E; apply in_or_app; right; right; exact I | exact C'].
Qed.

Lemma latest_successful sc ops : accepted sc ->
  (forall o r, In (o, r) (trace sc (init_state sc) ops) -> successful r \/ rejected r) ->
  latest_all successful (trace sc (init_state sc) ops) (run sc (init_state sc) ops).
Proof.
  intros Ha Hh.
  assert (Ec : forall o r, In (o, r) (trace sc (init_state sc) ops) -> (counts_stored r <-> successful r)).
  { intros o r I. unfold counts_stored. destruct (Hh o r I) as [[b ->] | R].
    - split; [intros _; exists b; reflexivity | intros _ [m Hm]; discriminate].
    - split; [contradiction|]. intros [b ->]. destruct R as [m Hm]; discriminate. }
  destruct (latest_stored sc ops Ha) as [L1 L2 L3 L4 L5 L6 L7].
  assert (Ec' : forall o r, In (o, r) (trace sc (init_state sc) ops) -> (successful r <-> counts_stored r))
    by (intros o r I; specialize (Ec o r I); tauto).
  constructor; intros v.
  - rewrite L1. split; apply is_latest_ext; assumption.
  - rewrite L2. split; apply is_latest_ext; assumption.
  - rewrite L3. split; apply is_latest_ext; assumption.
  - rewrite L4. split; apply is_latest_ext; assumption.
  - rewrite L5. split; apply is_latest_ext; assumption.
  - rewrite L6. split; apply is_latest_ext; assumption.
  - rewrite L7. split; apply is_latest_ext; assumption.
Qed.

(* ---- missing values (C07) ---- *)
Lemma never_given_none {A} sc (f : state -> option A) get ops a :
  (forall v, f (run sc (init_state sc) ops) = Some v <->
     is_latest counts_stored get (trace sc (init_state sc) ops) v) ->
  never_given get (trace sc (init_state sc) ops) a ->
  given (get a) || given (f (run sc (init_state sc) ops)) = false.
Proof.
  intros L [G N]. rewrite G. cbn. destruct (f (run sc (init_state sc) ops)) as [v |] eqn:E; [| reflexivity].
  exfalso. destruct (proj1 (L v) eq_refl) as (pre & o & r & post & E' & C & G' & _).
  rewrite (N o r) in G'; [discriminate | rewrite E'; apply in_or_app; right; left; reflexivity | exact C].
Qed.

Lemma run_app sc st o1 o2 : run sc st (o1 ++ o2) = run sc (run sc st o1) o2.
Proof. unfold run. apply fold_left_app. Qed.

Lemma missing_rejected sc ops a dr : accepted sc ->
  something_missing (trace sc (init_state sc) ops) a ->
  (exists m, set_topology sc (run sc (init_state sc) ops) a dr
     = (run sc (init_state sc) ops, Err (AssertionError m))) /\
  forall rest, run sc (init_state sc) (ops ++ (a, dr) :: rest) = run sc (init_state sc) (ops ++ rest).
Proof.
  intros Ha H. destruct (latest_stored sc ops Ha) as [L1 L2 L3 L4 L5 L6 L7].
  assert (C : complete_call (run sc (init_state sc) ops) a = false).
  { unfold complete_call.
    destruct H as [H | [H | [H | [H | [H | H]]]]].
    - rewrite (never_given_none sc s_ut_loc a_ut_loc ops a L1 H). reflexivity.
    - rewrite (never_given_none sc s_bs_loc a_bs_loc ops a L2 H), !andb_false_r. reflexivity.
    - rewrite (never_given_none sc s_in a_in ops a L6 H), !andb_false_r. reflexivity.
    - rewrite (never_given_none sc s_ut_ori a_ut_ori ops a L3 H), !andb_false_r. reflexivity.
    - rewrite (never_given_none sc s_bs_ori a_bs_ori ops a L4 H), !andb_false_r. reflexivity.
    - rewrite (never_given_none sc s_ut_vel a_ut_vel ops a L5 H), !andb_false_r. reflexivity. }
  destruct (set_topology_incomplete sc _ a dr C) as (m & E).
  split; [exists m; exact E|]. intros rest. rewrite !run_app. cbn [run fold_left].
  unfold step at 2. cbn [fst snd]. rewrite E. reflexivity.
Qed.

Lemma rejected_missing sc ops a dr : accepted sc ->
  rejected (snd (set_topology sc (run sc (init_state sc) ops) a dr)) ->
  something_missing (trace sc (init_state sc) ops) a.
Proof.
  intros Ha R.
  assert (L := latest_stored sc ops Ha). destruct L as [L1 L2 L3 L4 L5 L6 L7].
  destruct (set_topology sc (run sc (init_state sc) ops) a dr) as [st' r] eqn:E. cbn [snd] in R.
  destruct (step_cases _ _ _ _ _ _ Ha E) as [(C & _ & _) | (_ & N & _)]; [| contradiction].
  assert (Q : forall A (f : state -> option A) get,
     (forall st a dr st' r, set_topology sc st a dr = (st', r) -> rejected r -> f st' = f st) ->
     (forall st a dr st' r, set_topology sc st a dr = (st', r) -> ~ rejected r -> f st' = or_else (get a) (f st)) ->
     f (init_state sc) = None ->
     given (get a) || given (f (run sc (init_state sc) ops)) = false ->
     never_given get (trace sc (init_state sc) ops) a).
  { intros A f get H1 H2 H0 G. apply orb_false_iff in G. destruct G as [G1 G2].
    split; [destruct (get a); [discriminate | reflexivity]|].
    assert (Hn : f (run sc (init_state sc) ops) = None)
      by (destruct (f (run sc (init_state sc) ops)); [discriminate | reflexivity]).
    clear E C G1 G2 R L1 L2 L3 L4 L5 L6 L7 st' r. revert Hn. clear H0. generalize (init_state sc) as st.
    induction ops as [| o ops IH]; intros st Hn o' r' I NR; [destruct I|].
    cbn [trace] in I. cbn [run fold_left] in Hn. fold (run sc (step sc st o) ops) in Hn.
    destruct (set_topology sc st (fst o) (snd o)) as [st1 r1] eqn:E1.
    assert (Es : step sc st o = st1) by (unfold step; rewrite E1; reflexivity).
    rewrite Es in *. cbn [snd] in I. destruct I as [[= <- <-] | I].
    - destruct (get (fst o)) as [v |] eqn:G; [exfalso | reflexivity].
      assert (F := H2 _ _ _ _ _ E1 NR). rewrite G in F. cbn in F.
      assert (K : exists x, f (run sc st1 ops) = Some x).
      { clear -H1 H2 F. revert st1 v F. induction ops as [| o ops IH]; intros st1 v F; [eauto|].
        cbn [run fold_left]. fold (run sc (step sc st1 o) ops).
        destruct (set_topology sc st1 (fst o) (snd o)) as [st2 r2] eqn:E2.
        assert (Es : step sc st1 o = st2) by (unfold step; rewrite E2; reflexivity). rewrite Es.
        assert (D : rejected r2 \/ ~ rejected r2).
        { destruct r2 as [b | e]; [right; intros [m Hm]; discriminate|].
          destruct e; try (right; intros [m Hm]; discriminate). left; eexists; reflexivity. }
        destruct D as [D | D].
        - apply (IH st2 v). rewrite (H1 _ _ _ _ _ E2 D). exact F.
        - assert (F2 := H2 _ _ _ _ _ E2 D). rewrite F in F2.
          destruct (get (fst o)) as [x |]; cbn in F2; eauto. }
      destruct K as [x K]. congruence.
    - exact (IH st1 Hn o' r' I NR). }
  unfold complete_call in C. rewrite !andb_false_iff in C. unfold something_missing.
  destruct C as [[[[[C | C] | C] | C] | C] | C].
  - left. exact (Q _ s_ut_loc a_ut_loc (rej_s_ut_loc sc Ha) (acc_s_ut_loc sc Ha) eq_refl C).
  - right; left. exact (Q _ s_bs_loc a_bs_loc (rej_s_bs_loc sc Ha) (acc_s_bs_loc sc Ha) eq_refl C).
  - right; right; left. exact (Q _ s_in a_in (rej_s_in sc Ha) (acc_s_in sc Ha) eq_refl C).
  - do 3 right; left. exact (Q _ s_ut_ori a_ut_ori (rej_s_ut_ori sc Ha) (acc_s_ut_ori sc Ha) eq_refl C).
  - do 4 right; left. exact (Q _ s_bs_ori a_bs_ori (rej_s_bs_ori sc Ha) (acc_s_bs_ori sc Ha) eq_refl C).
  - do 5 right. exact (Q _ s_ut_vel a_ut_vel (rej_s_ut_vel sc Ha) (acc_s_ut_vel sc Ha) eq_refl C).
Qed.
