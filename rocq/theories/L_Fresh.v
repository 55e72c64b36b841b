From Coq Require Import Reals String List Bool Arith Lia Lra ZArith.
From Verif Require Import M_Base L_Base M_Params S_Config L_Params L_Config M_Geometry M_Pathloss
  M_Scenario S_Topology L_Scenario L_Pathloss L_Geometry.
Import ListNotations.
Open Scope string_scope.
Open Scope list_scope.
Open Scope R_scope.

Lemma trace_app sc o1 : forall st o2,
  trace sc st (o1 ++ o2) = trace sc st o1 ++ trace sc (run sc st o1) o2.
Proof.
  induction o1 as [| o o1 IH]; intros st o2; [reflexivity|].
  cbn [app trace]. rewrite IH. reflexivity.
Qed.

(* the update depends on the state only through the forced-LoS request *)
Lemma update_same sc s1 s2 ut bs ind w dr s1' :
  s_req_los s1 = s_req_los s2 ->
  update_topology sc s1 ut bs ind w dr = (s1', Ok true) ->
  exists s2', update_topology sc s2 ut bs ind w dr = (s2', Ok true) /\ same_derived s2' s1'.
Proof.
  intros E. unfold update_topology.
  destruct (distance_2d ut bs) as [d2 |]; [| discriminate].
  destruct (distance_3d_and_angles (sc_elev sc) ut bs) as [g |]; [| discriminate].
  destruct (sample_indoor d2 (g_d3d g) ut ind (dr_indoor dr)) as [i |]; [| discriminate].
  destruct (pv <- los_probability sc ;; num_of pv) as [p |]; [| discriminate].
  cbn [with_d2d with_geo s_req_los]. rewrite <- E.
  destruct (compute_lsp_stat sc d2 (sample_los (s_req_los s1) p ind (dr_los dr))) as [ls |]; [| discriminate].
  destruct (compute_pathlosses sc w (g_d3d g) (sample_los (s_req_los s1) p ind (dr_los dr)) (dr_z_los dr)
              (dr_z_nlos dr)) as [pl |]; [| discriminate].
  intros [= <-]. eexists. split; [reflexivity|]. unfold same_derived. cbn. auto 10.
Qed.

Lemma set_weather_explicit w : set_weather (explicit_weather w) = w.
Proof. destruct w. reflexivity. Qed.

Lemma current_args_call sc st w dr ut bs ind :
  s_ut_loc st = Some ut -> s_bs_loc st = Some bs -> s_in st = Some ind ->
  (exists x, s_ut_ori st = Some x) -> (exists x, s_bs_ori st = Some x) -> (exists x, s_ut_vel st = Some x) ->
  exists X, s_req_los X = s_req_los st /\ same_inputs X st /\
    set_topology sc (init_state sc) (current_args st w) dr = update_topology sc X ut bs ind w dr.
Proof.
  intros H1 H2 H3 [x1 H4] [x2 H5] [x3 H6].
  exists (store_args (init_state sc) (current_args st w)).
  split; [cbn; destruct (s_req_los st); reflexivity|].
  split.
  { unfold same_inputs. cbn. rewrite H1, H2, H3, H4, H5, H6. cbn.
    destruct (s_req_los st); auto 10. }
  unfold set_topology. cbn [current_args a_ut_loc a_bs_loc a_in a_ut_ori a_bs_ori a_ut_vel].
  rewrite H1, H2, H3, H4, H5, H6. cbn [given negb orb].
  unfold need_for_update. cbn [current_args a_ut_loc]. rewrite H1. cbn [given orb].
  cbn [store_args s_ut_loc s_bs_loc s_in current_args a_ut_loc a_bs_loc a_in a_weather].
  rewrite H1, H2, H3. cbn [or_else]. rewrite set_weather_explicit. reflexivity.
Qed.

Lemma update_true sc st ut bs ind w dr st' r : accepted sc ->
  update_topology sc st ut bs ind w dr = (st', r) -> (exists b, r = Ok b) -> r = Ok true.
Proof.
  intros Ha H [b Hb]. subst r. unfold update_topology in H.
  destruct (distance_2d ut bs) as [d2 |]; [| discriminate].
  destruct (distance_3d_and_angles (sc_elev sc) ut bs) as [g |]; [| discriminate].
  destruct (sample_indoor d2 (g_d3d g) ut ind (dr_indoor dr)) as [i |]; [| discriminate].
  destruct (pv <- los_probability sc ;; num_of pv) as [p |]; [| discriminate].
  destruct (compute_lsp_stat _ _ _) as [ls |]; [| discriminate].
  destruct (compute_pathlosses _ _ _ _ _ _) as [pl |]; inversion H; reflexivity.
Qed.

Definition all_set (st : state) : Prop :=
  (exists x, s_ut_loc st = Some x) /\ (exists x, s_bs_loc st = Some x) /\ (exists x, s_in st = Some x) /\
  (exists x, s_ut_ori st = Some x) /\ (exists x, s_bs_ori st = Some x) /\ (exists x, s_ut_vel st = Some x).

Lemma complete_all_set st a st' : complete_call st a = true -> same_inputs st' (store_args st a) ->
  all_set st'.
Proof.
  unfold complete_call. rewrite !andb_true_iff. intros (((((H1 & H2) & H3) & H4) & H5) & H6).
  intros (I1 & I2 & I3 & I4 & I5 & I6 & _). cbn in I1, I2, I3, I4, I5, I6.
  unfold all_set. rewrite I1, I2, I3, I4, I5, I6.
  repeat split; apply given_or; assumption.
Qed.

Definition fresh (sc : scenario) (h : list event) (st : state) : Prop :=
  exists o ut bs ind X X',
    latest_update h o /\ all_set st /\
    s_ut_loc st = Some ut /\ s_bs_loc st = Some bs /\ s_in st = Some ind /\
    s_req_los X = s_req_los st /\
    update_topology sc X ut bs ind (set_weather (a_weather (fst o))) (snd o) = (X', Ok true) /\
    same_derived X' st.

Lemma latest_update_snoc h o e : latest_update h o -> snd e <> Ok true -> latest_update (h ++ [e]) o.
Proof.
  intros (pre & post & E & N) Hn. exists pre, (post ++ [e]). split; [rewrite E, <- app_assoc; reflexivity|].
  intros o' r' I. apply in_app_or in I. destruct I as [I | [I | []]]; [exact (N o' r' I)|].
  subst e. exact Hn.
Qed.

Lemma or_else_none {A} (x y : option A) : given x = false -> or_else x y = y.
Proof. destruct x; [discriminate | reflexivity]. Qed.

Lemma fresh_run sc ops : accepted sc ->
  (forall o r, In (o, r) (trace sc (init_state sc) ops) -> successful r \/ rejected r) ->
  (exists o r, In (o, r) (trace sc (init_state sc) ops) /\ successful r) ->
  fresh sc (trace sc (init_state sc) ops) (run sc (init_state sc) ops).
Proof.
  intros Ha Hall Hex.
  assert (G : (run sc (init_state sc) ops = init_state sc /\
               forall o r, In (o, r) (trace sc (init_state sc) ops) -> rejected r) \/
              fresh sc (trace sc (init_state sc) ops) (run sc (init_state sc) ops)).
  { clear Hex. induction ops as [| o ops IH] using rev_ind.
    - left. split; [reflexivity | intros ? ? []].
    - rewrite trace_app, run_app in *. cbn [trace run fold_left] in *.
      set (h := trace sc (init_state sc) ops) in *. set (st := run sc (init_state sc) ops) in *.
      assert (IH' : (st = init_state sc /\ forall o r, In (o, r) h -> rejected r) \/ fresh sc h st).
      { apply IH. intros o' r' I. apply (Hall o' r'). apply in_or_app; left; exact I. }
      clear IH. destruct (set_topology sc st (fst o) (snd o)) as [st' r] eqn:E.
      assert (Es : step sc st o = st') by (unfold step; rewrite E; reflexivity).
      rewrite Es. clear Es. cbn [snd] in *.
      assert (Hr : successful r \/ rejected r) by (apply (Hall o r), in_or_app; right; left; reflexivity).
      destruct (step_cases _ _ _ _ _ _ Ha E) as [(C & -> & R) | (C & NR & I & W)].
      + destruct IH' as [[I1 I2] | F].
        * left. split; [exact I1|]. intros o' r' J. apply in_app_or in J.
          destruct J as [J | [[= <- <-] | []]]; [exact (I2 o' r' J) | exact R].
        * right. destruct F as (o0 & ut & bs & ind & X & X' & L & F).
          exists o0, ut, bs, ind, X, X'. split; [| exact F].
          apply latest_update_snoc; [exact L|]. cbn. destruct R as [m ->]. discriminate.
      + destruct Hr as [S | R]; [| contradiction]. right.
        destruct (set_topology_complete sc st (fst o) (snd o) C) as (ut & bs & ind & E1 & E2 & E3 & E').
        rewrite E in E'.
        assert (AS := complete_all_set _ _ _ C I).
        destruct I as (I1 & I2 & I3 & I4 & I5 & I6 & I7 & I8).
        destruct (need_for_update (fst o)) eqn:Nu.
        * symmetry in E'. assert (Rt := update_true _ _ _ _ _ _ _ _ _ Ha E' S). subst r.
          exists o, ut, bs, ind, (store_args st (fst o)), st'.
          split; [exists h, []; split; [reflexivity | intros ? ? []]|].
          split; [exact AS|]. split; [congruence|]. split; [congruence|]. split; [congruence|].
          split; [congruence|]. split; [exact E'|]. unfold same_derived; auto 10.
        * inversion E'; subst st' r.
          unfold need_for_update in Nu. rewrite !orb_false_iff in Nu. destruct Nu as (((N1 & N2) & N3) & N4).
          cbn [store_args s_ut_loc s_bs_loc s_in s_req_los] in *.
          rewrite (or_else_none _ _ N1) in *. rewrite (or_else_none _ _ N2) in *.
          rewrite (or_else_none _ _ N3) in *. rewrite (or_else_none _ _ N4) in *.
          destruct IH' as [[Hst _] | F]; [rewrite Hst in E1; discriminate|].
          destruct F as (o0 & ut0 & bs0 & ind0 & X & X' & L & A0 & F1 & F2 & F3 & F4 & F5 & F6).
          exists o0, ut, bs, ind, X, X'.
          split; [apply latest_update_snoc; [exact L | cbn; discriminate]|].
          split; [exact AS|]. cbn [store_args s_ut_loc s_bs_loc s_in s_req_los].
          rewrite (or_else_none _ _ N1), (or_else_none _ _ N2), (or_else_none _ _ N3), (or_else_none _ _ N4).
          split; [exact E1|]. split; [exact E2|]. split; [exact E3|]. split; [exact F4|].
          split; [congruence|]. unfold same_derived in *. cbn. exact F6. }
  destruct G as [[_ N] | F]; [| exact F].
  destruct Hex as (o & r & I & [b Hb]). destruct (N o r I) as [m Hm]. congruence.
Qed.

(* C09 in the form quoted by P_Topology *)
Lemma derived_fresh sc ops : accepted sc ->
  (forall o r, In (o, r) (trace sc (init_state sc) ops) -> successful r \/ rejected r) ->
  (exists o r, In (o, r) (trace sc (init_state sc) ops) /\ successful r) ->
  exists o st', latest_update (trace sc (init_state sc) ops) o /\
    set_topology sc (init_state sc)
      (current_args (run sc (init_state sc) ops) (set_weather (a_weather (fst o)))) (snd o)
      = (st', Ok true) /\
    same_derived st' (run sc (init_state sc) ops) /\ same_inputs st' (run sc (init_state sc) ops).
Proof.
  intros Ha H1 H2.
  destruct (fresh_run sc ops Ha H1 H2) as (o & ut & bs & ind & X & X' & L & A & F1 & F2 & F3 & F4 & F5 & F6).
  set (st := run sc (init_state sc) ops) in *.
  destruct A as (_ & _ & _ & A1 & A2 & A3).
  destruct (current_args_call sc st (set_weather (a_weather (fst o))) (snd o) ut bs ind F1 F2 F3 A1 A2 A3)
    as (Y & Y1 & Y2 & Y3).
  destruct (update_same sc X Y ut bs ind _ _ X' ltac:(congruence) F5) as (Y' & Z1 & Z2).
  exists o, Y'. split; [exact L|]. split; [rewrite Y3; exact Z1|].
  split.
  - unfold same_derived in *. intuition congruence.
  - destruct (update_inputs _ _ _ _ _ _ _ _ _ Z1) as [I _]. unfold same_inputs in *.
    intuition congruence.
Qed.

(* the explicit content of an updating call *)
Lemma update_content sc st a dr st' : accepted sc -> set_topology sc st a dr = (st', Ok true) ->
  exists ut bs ind p,
    s_ut_loc st' = Some ut /\ s_bs_loc st' = Some bs /\ s_in st' = Some ind /\
    t_batch ut = t_batch bs /\ t_num bs = 1%nat /\ (1 <= t_batch bs)%nat /\
    t_batch ind = t_batch ut /\ t_num ind = t_num ut /\
    documented_value (sc_env sc) (sc_fc sc) (sc_dir sc) (sc_elev sc) true "LoS_p" (Fin p) /\
    s_weather st' = Some (set_weather (a_weather a)) /\
    s_d2d st' = Some (fun b s u => dist_2d (t_at ut b u) (t_at bs b s)) /\
    (exists g, s_geo st' = Some g /\
       (forall b s u, g_d3d g b s u = slant_range (sc_elev sc) (vz (t_at bs 0%nat 0%nat))) /\
       (forall b s u, g_aod g b s u = los_aod (t_at ut b u) (t_at bs b s)) /\
       (forall b s u, g_aoa g b s u = los_aoa (t_at ut b u) (t_at bs b s)) /\
       (forall b s u, g_zod g b s u = los_zod (t_at ut b u) (t_at bs b s)) /\
       (forall b s u, g_zoa g b s u = los_zoa (t_at ut b u) (t_at bs b s)) /\
       (forall b u u', g_utd g b u u' = dist_2d (t_at ut b u') (t_at ut b u))) /\
    (exists los, s_los st' = Some los /\ los = sample_los (s_req_los st') p ind (dr_los dr) /\
       exists cl cn, link_column sc true = Ok cl /\ link_column sc false = Ok cn /\
       s_lsp st' = Some
         {| ls_col := fun x : bool => if x then cl else cn;
            ls_mean := fun b s u i => lsp_log_mean (if los b s u then cl else cn) i;
            ls_std := fun b s u i => lsp_log_std (if los b s u then cl else cn) i;
            ls_zod_offset := fun b s u => zod_offset_of (los b s u) (dist_2d (t_at ut b u) (t_at bs b s)) |} /\
       exists pl, s_pl st' = Some pl /\
         compute_pathlosses sc (set_weather (a_weather a))
           (fun _ _ _ => slant_range (sc_elev sc) (vz (t_at bs 0%nat 0%nat))) los
           (dr_z_los dr) (dr_z_nlos dr) = Ok pl) /\
    (exists i, s_ind st' = Some i /\
       sample_indoor (fun b s u => dist_2d (t_at ut b u) (t_at bs b s))
         (fun _ _ _ => slant_range (sc_elev sc) (vz (t_at bs 0%nat 0%nat))) ut ind (dr_indoor dr) = Ok i).
Proof.
  intros Ha H.
  destruct (step_cases _ _ _ _ _ _ Ha H) as [(_ & _ & [m Hm]) | (C & NR & I & W)]; [discriminate|].
  destruct (set_topology_complete sc st a dr C) as (ut & bs & ind & E1 & E2 & E3 & E).
  rewrite H in E. destruct (need_for_update a); [| discriminate].
  destruct I as (I1 & I2 & I3 & I4 & I5 & I6 & I7 & I8).
  destruct (los_prob_ok sc Ha) as (p & P1 & P2 & P3).
  exists ut, bs, ind, p.
  split; [congruence|]. split; [congruence|]. split; [congruence|].
  unfold update_topology in E. rewrite P1 in E.
  unfold distance_2d in E. destruct (Nat.eqb (t_batch ut) (t_batch bs)) eqn:B1; [| discriminate].
  unfold distance_3d_and_angles in E.
  destruct (Nat.eqb (t_num bs) 1 && Nat.leb 1 (t_batch bs)) eqn:B2; [| discriminate].
  cbn [g_d3d] in E.
  destruct (sample_indoor _ _ ut ind (dr_indoor dr)) as [i |] eqn:Ei; [| discriminate].
  assert (B3 : Nat.eqb (t_batch ind) (t_batch ut) && Nat.eqb (t_num ind) (t_num ut) = true).
  { unfold sample_indoor in Ei.
    destruct (Nat.eqb (t_batch ind) (t_batch ut) && Nat.eqb (t_num ind) (t_num ut));
      [reflexivity | discriminate]. }
  cbn [with_d2d with_geo s_req_los store_args] in E.
  destruct (lsp_stat_ok sc (fun b s u => dist_2d (t_at ut b u) (t_at bs b s))
     (sample_los (or_else (a_los a) (s_req_los st)) p ind (dr_los dr)) Ha) as (cl & cn & K1 & K2 & K3).
  rewrite K3 in E.
  destruct (compute_pathlosses _ _ _ _ _ _) as [pl |] eqn:Ep; [| discriminate].
  apply andb_true_iff in B2, B3. destruct B2 as [B2 B2']. destruct B3 as [B3 B3'].
  split; [apply Nat.eqb_eq; exact B1|]. split; [apply Nat.eqb_eq; exact B2|].
  split; [apply Nat.leb_le; exact B2'|]. split; [apply Nat.eqb_eq; exact B3|].
  split; [apply Nat.eqb_eq; exact B3'|]. split; [exact P3|]. split; [exact W|].
  assert (Er : s_req_los st' = or_else (a_los a) (s_req_los st)) by (rewrite I7; reflexivity).
  injection E as Est. rewrite Er. rewrite Est. clear Est. cbn.
  split; [reflexivity|]. split.
  - eexists. split; [reflexivity|]. cbn. auto 12.
  - split.
    + eexists. split; [reflexivity|]. split; [reflexivity|]. exists cl, cn.
      split; [exact K1|]. split; [exact K2|]. split; [reflexivity|].
      exists pl. split; [reflexivity | first [reflexivity | exact Ep]].
    + exists i. split; [reflexivity | first [reflexivity | exact Ei]].
Qed.

(* the stored forced-LoS request survives *)
Lemma req_los_persists sc ops : forall st r, accepted sc -> s_req_los st = Some r ->
  (forall o, In o ops -> a_los (fst o) = None) -> s_req_los (run sc st ops) = Some r.
Proof.
  induction ops as [| o ops IH]; intros st r Ha H N; [exact H|].
  cbn [run fold_left]. fold (run sc (step sc st o) ops). apply IH; [exact Ha | | intros; apply N; right; assumption].
  unfold step. destruct (set_topology sc st (fst o) (snd o)) as [st' r'] eqn:E. cbn [fst].
  destruct (step_cases _ _ _ _ _ _ Ha E) as [(_ & -> & _) | (_ & _ & I & _)]; [exact H|].
  destruct I as (_ & _ & _ & _ & _ & _ & I & _). rewrite I. cbn.
  rewrite (N o (or_introl eq_refl)). exact H.
Qed.

(* ---- witnesses ---- *)
Definition t1 {A} (x : A) : tens A := T 1 1 (fun _ _ => x).

Definition w_args (wa : weather_args) : topo_args :=
  {| a_ut_loc := Some (t1 (V3 100 0 1.5)); a_bs_loc := Some (t1 (V3 0 0 600000));
     a_ut_ori := Some (t1 (V3 0 0 0)); a_bs_ori := Some (t1 (V3 0 0 0));
     a_ut_vel := Some (t1 (V3 0 0 0)); a_in := Some (t1 false); a_los := None;
     a_weather := wa; a_doppler := None |}.

Definition dry : weather_args :=
  {| wa_latitude := None; wa_lwc := None; wa_rain := None; wa_pressure := None;
     wa_temperature := None; wa_vapor := Some 0; wa_humidity := None; wa_diameter := None;
     wa_efficiency := None |}.

(* a call that only sets the weather *)
Definition only_weather (wa : weather_args) : topo_args :=
  {| a_ut_loc := None; a_bs_loc := None; a_ut_ori := None; a_bs_ori := None; a_ut_vel := None;
     a_in := None; a_los := None; a_weather := wa; a_doppler := None |}.

Definition no_draws : topo_draws :=
  {| dr_indoor := fun _ _ _ => 0; dr_los := fun _ _ _ => 0; dr_z_los := fun _ _ _ => 0;
     dr_z_nlos := fun _ _ _ => 0 |}.

Definition two_bs : topo_args :=
  {| a_ut_loc := Some (t1 (V3 200 0 1.5)); a_bs_loc := Some (T 1 2 (fun _ _ => V3 0 0 600000));
     a_ut_ori := None; a_bs_ori := None; a_ut_vel := None; a_in := None; a_los := None;
     a_weather := no_weather; a_doppler := None |}.

(* a topology that succeeds whenever everything is there *)
Lemma update_succeeds sc st ut bs ind w dr : accepted sc ->
  t_batch ut = t_batch bs -> t_num bs = 1%nat -> (1 <= t_batch bs)%nat ->
  t_batch ind = t_batch ut -> t_num ind = t_num ut ->
  exists st', update_topology sc st ut bs ind w dr = (st', Ok true).
Proof.
  intros Ha H1 H2 H3 H4 H5. unfold update_topology, distance_2d. rewrite H1, Nat.eqb_refl.
  unfold distance_3d_and_angles. rewrite H2. apply Nat.leb_le in H3. rewrite H3. cbn [Nat.eqb andb].
  unfold sample_indoor. rewrite H4, H5, !Nat.eqb_refl. cbn [andb].
  destruct (los_prob_ok sc Ha) as (p & -> & _).
  match goal with |- context [compute_lsp_stat sc ?d ?l] =>
    destruct (lsp_stat_ok sc d l Ha) as (cl & cn & _ & _ & ->) end.
  match goal with |- context [compute_pathlosses sc ?w ?d ?l ?x ?y] =>
    destruct (pathlosses_ok sc w d l x y Ha) as (c1 & c2 & c3 & _ & _ & _ & ->) end.
  eexists. reflexivity.
Qed.

Lemma first_call sc st wa dr : accepted sc -> exists st', set_topology sc st (w_args wa) dr = (st', Ok true).
Proof.
  intros Ha. unfold set_topology. cbn [w_args a_ut_loc a_bs_loc a_in a_ut_ori a_bs_ori a_ut_vel given orb negb].
  unfold need_for_update. cbn [w_args a_ut_loc given orb].
  cbn [store_args s_ut_loc s_bs_loc s_in w_args a_ut_loc a_bs_loc a_in or_else].
  apply update_succeeds; [exact Ha | reflexivity ..].
Qed.
