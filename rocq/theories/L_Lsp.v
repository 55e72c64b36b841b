From Coq Require Import Reals String List Bool Arith Lia Lra ZArith QArith Qreals.
From Verif Require Import M_Base L_Base M_Json M_Params S_Config L_Params L_Config M_Geometry
  M_Pathloss M_Scenario M_Lsp S_Linear L_Linear S_Topology L_Scenario L_Fresh L_Topology S_Lsp
  L_Corr L_Kernel.
Import ListNotations.
Open Scope string_scope.
Open Scope list_scope.
Open Scope R_scope.

(* ---- columns ---- *)
Lemma link_column_good sc los lp : accepted sc -> link_column sc los = Ok lp ->
  good_column (dir_ul (sc_dir sc)) lp.
Proof.
  intros Ha H. destruct (link_column_ok sc los Ha) as (lp' & E & G). congruence.
Qed.

Lemma cross_corr_valid sc los lp : accepted sc -> link_column sc los = Ok lp ->
  symmetric 7 (cross_corr lp) /\ (forall i, (i < 7)%nat -> cross_corr lp i i = 1) /\
  pos_def 7 (cross_corr lp) /\
  (forall i j, (i < 7)%nat -> (j < 7)%nat -> i <> j -> -1 < cross_corr lp i j < 1) /\
  (forall X Y i j, In (X, Y) coefficient_pairs -> lsp_index X i -> lsp_index Y j ->
     documented_value (sc_env sc) (sc_fc sc) (sc_dir sc) (sc_elev sc) los ("corr" ++ X ++ "vs" ++ Y)%string
       (Fin (cross_corr lp i j))).
Proof.
  intros Ha H. assert (G := link_column_good _ _ _ Ha H).
  destruct (cross_corr_entries lp (gc_corr _ _ G)) as [D F].
  split; [apply cross_corr_sym|]. split; [exact D|]. split; [exact (link_corr_ok sc los lp Ha H)|].
  split; [exact (pos_def_entries 7 _ (cross_corr_sym lp 7) (link_corr_ok sc los lp Ha H) D)|].
  intros X Y i j HXY Hi Hj.
  assert (Dc := link_column_documented sc los lp Ha H). unfold documented_column in Dc. cbv zeta in Dc.
  do 24 (destruct Dc as [_ Dc]). destruct Dc as [Dc _].
  clear -F Dc HXY Hi Hj. revert F Dc HXY. generalize (cross_corr lp). intros M.
  generalize coefficient_pairs as ps. generalize (lp_corr lp) as rs.
  intros rs ps F. induction F as [| q r ps rs Hq F IH]; intros Dc HXY; [destruct HXY|].
  inversion Dc as [| q' r' ps' rs' D1 D2]; subst. destruct HXY as [-> | HXY].
  - destruct (Hq i j Hi Hj) as [E _]. cbn [fst snd] in D1. rewrite E. exact D1.
  - apply IH; assumption.
Qed.

Lemma corr_dist_doc sc los lp X i : accepted sc -> link_column sc los = Ok lp -> lsp_index X i ->
  documented_value (sc_env sc) (sc_fc sc) (sc_dir sc) (sc_elev sc) los ("corrDist" ++ X)%string
    (Fin (corr_dist lp i)).
Proof.
  intros Ha H HX. assert (Dc := link_column_documented sc los lp Ha H). unfold documented_column in Dc.
  cbv zeta in Dc. do 25 (destruct Dc as [_ Dc]). unfold corr_dist.
  inversion Dc as [| a0 b0 q0 r0 D0 F0 E0 E0']; subst; clear Dc.
  inversion F0 as [| a1 b1 q1 r1 D1 F1]; subst; clear F0.
  inversion F1 as [| a2 b2 q2 r2 D2 F2]; subst; clear F1.
  inversion F2 as [| a3 b3 q3 r3 D3 F3]; subst; clear F2.
  inversion F3 as [| a4 b4 q4 r4 D4 F4]; subst; clear F3.
  inversion F4 as [| a5 b5 q5 r5 D5 F5]; subst; clear F4.
  inversion F5 as [| a6 b6 q6 r6 D6 F6]; subst; clear F5.
  inversion HX; subst; cbn [nth]; assumption.
Qed.

Lemma lsp_index_lt X i : lsp_index X i -> (i < 7)%nat.
Proof. inversion 1; lia. Qed.

Lemma lsp_index_of i : (i < 7)%nat -> exists X, lsp_index X i.
Proof.
  intros H. do 7 (destruct i as [| i]; [eexists; constructor|]). lia.
Qed.

(* ---- spatial matrix ---- *)
Section Spatial.
  Context (ind los : nat -> bool) (pos : nat -> vec3) (D : bool -> R).
  Context (Hex : forall u, los u = true -> ind u = false).
  Context (HD : forall b, 0 < D b).

  Let st u := state_of (ind u) (los u).
  Let M : matrix := fun u u' =>
    exp (dist_2d (pos u') (pos u) * (- 1 / D (los u))) * pair_filter ind los u u'.

  Lemma filter_val u u' :
    pair_filter ind los u u' = if Nat.eqb u u' then 1 else
      match st u, st u' with
      | Indoor, Indoor | LineOfSight, LineOfSight | NonLineOfSight, NonLineOfSight => 1
      | _, _ => 0
      end.
  Proof.
    unfold pair_filter, st, state_of. assert (A := Hex u). assert (B := Hex u').
    destruct (Nat.eqb_spec u u') as [-> | N].
    - destruct (ind u'), (los u'); try reflexivity.
    - destruct (ind u), (los u), (ind u'), (los u'); try reflexivity;
      try (discriminate (A eq_refl)); try (discriminate (B eq_refl)).
  Qed.

  Lemma filter_same u u' : st u = st u' -> pair_filter ind los u u' = 1.
  Proof.
    intros E. rewrite filter_val, E. destruct (Nat.eqb u u'), (st u'); reflexivity.
  Qed.

  Lemma filter_diff u u' : st u <> st u' -> pair_filter ind los u u' = 0.
  Proof.
    intros E. rewrite filter_val. destruct (Nat.eqb_spec u u') as [-> | N]; [congruence|].
    destruct (st u), (st u'); congruence.
  Qed.

  Lemma dist_plane p q : dist_2d p q = plane_distance p q.
  Proof. unfold dist_2d, plane_distance, sq. f_equal. ring. Qed.
  Lemma plane_sym p q : plane_distance p q = plane_distance q p.
  Proof. unfold plane_distance. f_equal. ring. Qed.

  Definition same_los u u' : st u = st u' -> los u = los u'.
  Proof.
    unfold st, state_of. assert (A := Hex u). assert (B := Hex u').
    destruct (ind u), (los u), (ind u'), (los u'); intros E; try reflexivity; try discriminate;
      try (discriminate (A eq_refl)); try (discriminate (B eq_refl)).
  Qed.

  Lemma M_same u u' : st u = st u' -> M u u' = exp (- plane_distance (pos u) (pos u') / D (los u)).
  Proof.
    intros E. unfold M. rewrite (filter_same _ _ E), dist_plane, plane_sym, Rmult_1_r. f_equal.
    unfold Rdiv. ring.
  Qed.

  Lemma M_diff u u' : st u <> st u' -> M u u' = 0.
  Proof. intros E. unfold M. rewrite (filter_diff _ _ E). ring. Qed.

  Lemma st_dec u u' : {st u = st u'} + {st u <> st u'}.
  Proof. decide equality. Qed.

  Lemma M_diag u : M u u = 1.
  Proof.
    rewrite M_same by reflexivity. unfold plane_distance.
    replace ((vx (pos u) - vx (pos u)) ^ 2 + (vy (pos u) - vy (pos u)) ^ 2) with 0 by ring.
    rewrite sqrt_0. unfold Rdiv. rewrite Ropp_0, Rmult_0_l. apply exp_0.
  Qed.

  Lemma M_sym u u' : M u u' = M u' u.
  Proof.
    destruct (st_dec u u') as [E | N].
    - rewrite (M_same _ _ E), (M_same _ _ (eq_sym E)), plane_sym, (same_los _ _ E). reflexivity.
    - rewrite (M_diff _ _ N), M_diff by congruence. reflexivity.
  Qed.

  Lemma M_range u u' : 0 <= M u u' <= 1.
  Proof.
    destruct (st_dec u u') as [E | N]; [| rewrite (M_diff _ _ N); lra].
    rewrite (M_same _ _ E). split; [left; apply exp_pos|]. rewrite <- exp_0.
    assert (Q : 0 <= plane_distance (pos u) (pos u') / D (los u)).
    { apply Rle_mult_inv_pos; [apply sqrt_pos | apply HD]. }
    replace (- plane_distance (pos u) (pos u') / D (los u))
      with (- (plane_distance (pos u) (pos u') / D (los u))) by (unfold Rdiv; ring).
    destruct Q as [Q | Q]; [left; apply exp_increasing; lra | right; rewrite <- Q, Ropp_0; reflexivity].
  Qed.

  (* decomposition by state *)
  Definition is_state (g : link_state) u : bool :=
    match g, st u with
    | Indoor, Indoor | LineOfSight, LineOfSight | NonLineOfSight, NonLineOfSight => true
    | _, _ => false
    end.

  Lemma is_state_iff g u : is_state g u = true <-> st u = g.
  Proof. unfold is_state. destruct g, (st u); split; congruence. Qed.

  Lemma Rsum_filter (l : list nat) f (p : nat -> bool) :
    Rsum (map (fun i => if p i then f i else 0) l) = Rsum (map f (filter p l)).
  Proof.
    induction l as [| a l IH]; [reflexivity|]. cbn [map Rsum filter]. rewrite IH.
    destruct (p a); cbn [map Rsum]; ring.
  Qed.

  Lemma quadl_filter l A c (p : nat -> bool) :
    quadl l A (fun i => if p i then c i else 0) = quadl (filter p l) A c.
  Proof.
    unfold quadl. rewrite <- (Rsum_filter l (fun i => Rsum (map (fun j => c i * A i j * c j) (filter p l)))).
    apply Rsum_ext. intros i _. destruct (p i).
    - rewrite <- (Rsum_filter l (fun j => c i * A i j * c j)). apply Rsum_ext. intros j _. destruct (p j); ring.
    - transitivity (Rsum (map (fun _ : nat => 0) l)).
      + apply Rsum_ext. intros j _. ring.
      + rewrite Rsum_const. ring.
  Qed.

  Definition Dof (g : link_state) : R := D (match g with LineOfSight => true | _ => false end).

  Lemma Dof_los u : D (los u) = Dof (st u).
  Proof.
    unfold Dof, st, state_of. assert (A := Hex u). destruct (ind u), (los u); try reflexivity.
    discriminate (A eq_refl).
  Qed.

  Definition gpx (g : link_state) u := vx (pos u) / Dof g.
  Definition gpy (g : link_state) u := vy (pos u) / Dof g.

  Lemma Dof_pos g : 0 < Dof g. Proof. apply HD. Qed.

  Lemma scaled_dist g u u' : pdist (gpx g) (gpy g) u u' = plane_distance (pos u) (pos u') / Dof g.
  Proof.
    assert (P := Dof_pos g). unfold pdist, gpx, gpy, plane_distance.
    replace ((vx (pos u) / Dof g - vx (pos u') / Dof g) * (vx (pos u) / Dof g - vx (pos u') / Dof g) +
      (vy (pos u) / Dof g - vy (pos u') / Dof g) * (vy (pos u) / Dof g - vy (pos u') / Dof g))
      with (((vx (pos u) - vx (pos u')) ^ 2 + (vy (pos u) - vy (pos u')) ^ 2) / (Dof g) ^ 2) by (field; lra).
    rewrite sqrt_div_alt by (apply pow_lt; exact P). rewrite sqrt_pow2 by lra. reflexivity.
  Qed.

  Lemma M_split l c : quadl l M c
    = quadl (filter (is_state Indoor) l) (fun a b => exp (- pdist (gpx Indoor) (gpy Indoor) a b)) c
    + quadl (filter (is_state LineOfSight) l) (fun a b => exp (- pdist (gpx LineOfSight) (gpy LineOfSight) a b)) c
    + quadl (filter (is_state NonLineOfSight) l)
        (fun a b => exp (- pdist (gpx NonLineOfSight) (gpy NonLineOfSight) a b)) c.
  Proof.
    rewrite <- !quadl_filter. unfold quadl. rewrite <- !Rsum_plus. apply Rsum_ext. intros i _.
    rewrite <- !Rsum_plus. apply Rsum_ext. intros j _.
    destruct (st_dec i j) as [E | N].
    - rewrite (M_same _ _ E). rewrite !scaled_dist, Dof_los.
      replace (- plane_distance (pos i) (pos j) / Dof (st i))
        with (- (plane_distance (pos i) (pos j) / Dof (st i))) by (unfold Rdiv; ring).
      unfold is_state. rewrite <- E. destruct (st i); ring.
    - rewrite (M_diff _ _ N). unfold is_state. destruct (st i), (st j); try ring; elim N; reflexivity.
  Qed.

  Lemma group_psd g l c : 0 <= quadl l (fun a b => exp (- pdist (gpx g) (gpy g) a b)) c.
  Proof.
    assert (P : psd_on (fun _ => True) (fun a b => exp (- pdist (gpx g) (gpy g) a b))).
    { apply (psd_limit _ (fun m => prodk (1 * S m) (fun k a => dterm (1 * S m) (gpx g a) (gpy g a) k))).
      - intros m. apply prodk_psd.
      - intros a b _ _ e He.
        assert (CV : Un_cv (fun m => exp (- sumR (1 * S m) (fun k => Rabs (dterm (1 * S m) (gpx g a - gpx g b) (gpy g a - gpy g b) k))))
          (exp (- pdist (gpx g) (gpy g) a b))).
        { apply (continuity_seq (fun z => exp (- z)) _ (pdist (gpx g) (gpy g) a b)).
          - apply derivable_continuous_pt. reg.
          - exact (dir_limit 1 _ _ (le_n 1)). }
        destruct (CV e He) as (K & HK). exists K. intros m Hm. rewrite prodk_val.
        replace (sumR (1 * S m) (fun k => Rabs (dterm (1 * S m) (gpx g a) (gpy g a) k - dterm (1 * S m) (gpx g b) (gpy g b) k)))
          with (sumR (1 * S m) (fun k => Rabs (dterm (1 * S m) (gpx g a - gpx g b) (gpy g a - gpy g b) k))).
        + apply HK, Hm.
        + apply sumR_ext. intros k _. f_equal. unfold dterm, proj. ring. }
    apply P. auto.
  Qed.

  Lemma M_psd n : pos_semidef n M.
  Proof.
    intros x. rewrite <- quadl_seq, M_split.
    apply Rplus_le_le_0_compat; [apply Rplus_le_le_0_compat|]; apply group_psd.
  Qed.

  Lemma group_pd n g c : (forall u u', (u < n)%nat -> (u' < n)%nat -> u <> u' -> st u = st u' ->
       vx (pos u) <> vx (pos u') \/ vy (pos u) <> vy (pos u')) ->
    (exists i, (i < n)%nat /\ st i = g /\ c i <> 0) ->
    0 < quadl (filter (is_state g) (seq 0 n)) (fun a b => exp (- pdist (gpx g) (gpy g) a b)) c.
  Proof.
    intros Hd (i & Hi & Hg & Hc).
    assert (Inl : forall u, In u (filter (is_state g) (seq 0 n)) -> (u < n)%nat /\ st u = g).
    { intros u Hu. apply filter_In in Hu. destruct Hu as [H1 H2]. apply in_seq in H1.
      split; [lia | apply is_state_iff; exact H2]. }
    apply plane_kernel_pd.
    - apply NoDup_filter, seq_NoDup.
    - intros a b Ha Hb Hab. destruct (Inl a Ha) as [A1 A2]. destruct (Inl b Hb) as [B1 B2].
      assert (P := Dof_pos g). unfold gpx, gpy.
      destruct (Hd a b A1 B1 Hab ltac:(congruence)) as [N | N]; [left | right]; intros E; apply N;
        apply Rmult_eq_reg_r with (/ Dof g); [exact E | | exact E |]; apply Rgt_not_eq, Rinv_0_lt_compat, P.
    - exists i. split; [| exact Hc]. apply filter_In. split; [apply in_seq; lia | apply is_state_iff; exact Hg].
  Qed.

  Lemma M_pd n : (forall u u', (u < n)%nat -> (u' < n)%nat -> u <> u' -> st u = st u' ->
       vx (pos u) <> vx (pos u') \/ vy (pos u) <> vy (pos u')) -> pos_def n M.
  Proof.
    intros Hd x (i & Hi & Hx). rewrite <- quadl_seq, M_split.
    assert (A := group_psd Indoor (filter (is_state Indoor) (seq 0 n)) x).
    assert (B := group_psd LineOfSight (filter (is_state LineOfSight) (seq 0 n)) x).
    assert (C := group_psd NonLineOfSight (filter (is_state NonLineOfSight) (seq 0 n)) x).
    assert (P := group_pd n (st i) x Hd (ex_intro _ i (conj Hi (conj eq_refl Hx)))).
    destruct (st i); lra.
  Qed.

  Lemma M_colocated n u u' : (u < n)%nat -> (u' < n)%nat -> u <> u' -> st u = st u' ->
    vx (pos u) = vx (pos u') -> vy (pos u) = vy (pos u') -> ~ pos_def n M.
  Proof.
    intros Hu Hu' N E X Y P.
    assert (One : M u u' = 1).
    { rewrite (M_same _ _ E). unfold plane_distance. rewrite X, Y.
      replace ((vx (pos u') - vx (pos u')) ^ 2 + (vy (pos u') - vy (pos u')) ^ 2) with 0 by ring.
      rewrite sqrt_0. unfold Rdiv. rewrite Ropp_0, Rmult_0_l. apply exp_0. }
    assert (Q := P (fun k => if Nat.eqb k u then 1 else if Nat.eqb k u' then -1 else 0)).
    rewrite quad_two in Q by assumption. rewrite !M_diag, (M_sym u' u), One in Q.
    assert (0 < 1 + -1 * 1 + -1 * 1 + -1 * -1 * 1); [| lra].
    apply Q. exists u. split; [exact Hu|]. rewrite Nat.eqb_refl. lra.
  Qed.

  Lemma M_pd_iff n : pos_def n M <->
    (forall u u', (u < n)%nat -> (u' < n)%nat -> u <> u' -> st u = st u' ->
       vx (pos u) <> vx (pos u') \/ vy (pos u) <> vy (pos u')).
  Proof.
    split; [| apply M_pd]. intros P u u' Hu Hu' N E.
    destruct (Req_EM_T (vx (pos u)) (vx (pos u'))) as [X | X]; [| left; exact X].
    destruct (Req_EM_T (vy (pos u)) (vy (pos u'))) as [Y | Y]; [| right; exact Y].
    elim (M_colocated n u u' Hu Hu' N E X Y P).
  Qed.
End Spatial.

(* ---- statements on a topology update ---- *)
Lemma C19_l sc st a dr st' : constructed sc -> set_topology sc st a dr = (st', Ok true) ->
  exists los C, s_los st' = Some los /\ cross_matrix st' = Ok C /\
    forall b s u,
      let M := C b s u in
      symmetric 7 M /\ (forall i, (i < 7)%nat -> M i i = 1) /\ pos_def 7 M /\
      (forall i j, (i < 7)%nat -> (j < 7)%nat -> i <> j -> -1 < M i j < 1) /\
      (forall X Y i j, In (X, Y) coefficient_pairs -> lsp_index X i -> lsp_index Y j ->
         documented_value (sc_env sc) (sc_fc sc) (sc_dir sc) (sc_elev sc) (los b s u)
           ("corr" ++ X ++ "vs" ++ Y)%string (Fin (M i j))) /\
      exists L, is_cholesky 7 M L.
Proof.
  intros Hc H. assert (Ha := constructed_accepted sc Hc).
  destruct (update_content _ _ _ _ _ Ha H) as (ut & bs & ind & p & _ & _ & _ & _ & _ & _ & _ & _ & _ & _ & _ & _ &
    (los & L1 & _ & cl & cn & K1 & K2 & K3 & _) & _).
  exists los. unfold cross_matrix. rewrite K3, L1. eexists. split; [reflexivity|]. split; [reflexivity|].
  intros b s u. cbn [ls_col]. cbv zeta.
  assert (V : exists lp, (if los b s u then cl else cn) = lp /\ link_column sc (los b s u) = Ok lp).
  { destruct (los b s u); [exists cl | exists cn]; split; (reflexivity || assumption). }
  destruct V as (lp & -> & V). destruct (cross_corr_valid sc (los b s u) lp Ha V) as (A & B & C & D & E).
  split; [exact A|]. split; [exact B|]. split; [exact C|]. split; [exact D|]. split; [exact E|].
  apply cholesky_exists; assumption.
Qed.

Lemma C20_l sc st a dr st' : constructed sc -> set_topology sc st a dr = (st', Ok true) ->
  exists ut ind los S, s_ut_loc st' = Some ut /\ s_in st' = Some ind /\ s_los st' = Some los /\
    spatial_matrix st' = Ok S /\
    forall b s X i, lsp_index X i ->
      let M := S b s i in
      let n := t_num ut in
      let state u := state_of (t_at ind b u) (los b s u) in
      symmetric n M /\ (forall u, M u u = 1) /\ (forall u u', 0 <= M u u' <= 1) /\
      (forall u u', state u <> state u' -> M u u' = 0) /\
      (forall u u' D, state u = state u' ->
         documented_value (sc_env sc) (sc_fc sc) (sc_dir sc) (sc_elev sc) (los b s u)
           ("corrDist" ++ X)%string (Fin D) ->
         0 < D /\ M u u' = exp (- plane_distance (t_at ut b u) (t_at ut b u') / D)) /\
      pos_semidef n M /\
      ((exists L, is_cholesky n M L) <->
       forall u u', (u < n)%nat -> (u' < n)%nat -> u <> u' -> state u = state u' ->
         vx (t_at ut b u) <> vx (t_at ut b u') \/ vy (t_at ut b u) <> vy (t_at ut b u')).
Proof.
  intros Hc H. assert (Ha := constructed_accepted sc Hc).
  destruct (update_content _ _ _ _ _ Ha H) as (ut & bs & ind & p & U1 & _ & U3 & _ & _ & _ & _ & _ & _ & _ & _ &
    (g & G1 & _ & _ & _ & _ & _ & G7) & (los & L1 & L2 & cl & cn & K1 & K2 & K3 & _) & _).
  exists ut, ind, los. unfold spatial_matrix. rewrite K3, L1, G1, U3. eexists.
  split; [exact U1|]. split; [reflexivity|]. split; [reflexivity|]. split; [reflexivity|].
  intros b s X i HX. cbn [ls_col]. cbv zeta.
  assert (Hex : forall u, los b s u = true -> t_at ind b u = false).
  { intros u. rewrite L2. unfold sample_los. rewrite andb_true_iff, negb_true_iff. tauto. }
  set (D := fun x : bool => corr_dist (if x then cl else cn) i).
  assert (Hi := lsp_index_lt X i HX).
  assert (HD : forall x, 0 < D x).
  { intros x. unfold D, corr_dist. assert (G := link_column_good sc x (if x then cl else cn) Ha
      ltac:(destruct x; assumption)). assert (Q := gc_cdpos _ _ G i Hi). lra. }
  assert (Doc : forall x, documented_value (sc_env sc) (sc_fc sc) (sc_dir sc) (sc_elev sc) x ("corrDist" ++ X)%string (Fin (D x))).
  { intros x. unfold D. apply corr_dist_doc; [exact Ha | destruct x; assumption | exact HX]. }
  set (M := spatial_corr (t_at ind b) (los b s) (g_utd g b)
     (fun u i0 => corr_dist (if los b s u then cl else cn) i0) i).
  assert (EM : forall u u', M u u' = exp (dist_2d (t_at ut b u') (t_at ut b u) * (- 1 / D (los b s u)))
                 * pair_filter (t_at ind b) (los b s) u u').
  { intros u u'. unfold M, spatial_corr. rewrite G7. reflexivity. }
  set (M' := fun u u' => exp (dist_2d (t_at ut b u') (t_at ut b u) * (- 1 / D (los b s u)))
                 * pair_filter (t_at ind b) (los b s) u u') in EM.
  assert (Hpsd := M_psd _ _ (t_at ut b) D Hex HD (t_num ut)).
  assert (Hpd := M_pd_iff _ _ (t_at ut b) D Hex HD (t_num ut)).
  fold M' in Hpsd, Hpd. cbv beta zeta in Hpd.
  assert (EQ : forall x, quad (t_num ut) M x = quad (t_num ut) M' x)
    by (intros x; apply quad_ext; intros; apply EM).
  split. { intros u u' _ _. rewrite !EM. apply (M_sym _ _ (t_at ut b) D Hex). }
  split. { intros u. rewrite EM. apply (M_diag _ _ (t_at ut b) D Hex). }
  split. { intros u u'. rewrite EM. apply (M_range _ _ (t_at ut b) D Hex HD). }
  split. { intros u u' N. rewrite EM. apply (M_diff _ _ (t_at ut b) D Hex); exact N. }
  split. { intros u u' D' E Hdoc. assert (Q := documented_value_fun _ _ _ _ _ _ _ _ (Doc (los b s u)) Hdoc).
    injection Q as <-. split; [apply HD|]. rewrite EM. apply (M_same _ _ (t_at ut b) D Hex); exact E. }
  split. { intros x. rewrite EQ. apply Hpsd. }
  assert (Sy : symmetric (t_num ut) M) by (intros u u' _ _; rewrite !EM; apply (M_sym _ _ (t_at ut b) D Hex)).
  etransitivity; [| exact Hpd]. split.
  - intros (L & HL) x Hx. rewrite <- EQ. apply (cholesky_pos_def _ _ _ HL x Hx).
  - intros P. apply cholesky_exists; [exact Sy|]. intros x Hx. rewrite EQ. apply P, Hx.
Qed.

(* ---- C18 ---- *)
Lemma lsp_value_range m s v : 0 <= lsp_value m s v.
Proof. destruct m; cbn; [lra | left; apply pow10_pos]. Qed.

Lemma Rmin_range x c : 0 <= x -> 0 <= c -> 0 <= Rmin x c <= c.
Proof. intros. split; [apply Rmin_glb; assumption | apply Rmin_r]. Qed.

Lemma C18_l sc st a dr st' nut Lx Lsp z : constructed sc -> set_topology sc st a dr = (st', Ok true) ->
  exists los f, s_los st' = Some los /\ sample_lsp st' nut Lx Lsp z = Ok f /\
    forall b s u,
      0 < l_ds (f b s u) /\ 0 < l_sf (f b s u) /\ 0 < l_k (f b s u) /\
      0 <= l_asd (f b s u) <= 104 /\ 0 < l_asa (f b s u) <= 104 /\
      0 < l_zsa (f b s u) <= 52 /\ 0 <= l_zsd (f b s u) <= 52 /\
      (l_asd (f b s u) = 0 <->
       documented_value (sc_env sc) (sc_fc sc) (sc_dir sc) (sc_elev sc) (los b s u) "muASD" NegInf) /\
      (l_zsd (f b s u) = 0 <->
       documented_value (sc_env sc) (sc_fc sc) (sc_dir sc) (sc_elev sc) (los b s u) "muZSD" NegInf) /\
      (sc_dir sc = "uplink" -> 0 < l_asd (f b s u) /\ 0 < l_zsd (f b s u)).
Proof.
  intros Hc H. assert (Ha := constructed_accepted sc Hc).
  destruct (update_content _ _ _ _ _ Ha H) as (ut & bs & ind & p & _ & _ & _ & _ & _ & _ & _ & _ & _ & _ & _ & _ &
    (los & L1 & _ & cl & cn & K1 & K2 & K3 & _) & _).
  exists los. unfold sample_lsp. rewrite K3. eexists. split; [exact L1|]. split; [reflexivity|].
  intros b s u. cbn [ls_mean ls_std]. unfold make_lsp. cbn [l_ds l_asd l_asa l_sf l_k l_zsa l_zsd].
  set (v := spatially_filtered nut _ _ u).
  assert (V : exists lp, (if los b s u then cl else cn) = lp /\ link_column sc (los b s u) = Ok lp).
  { destruct (los b s u); [exists cl | exists cn]; split; (reflexivity || assumption). }
  destruct V as (lp & -> & V). assert (Dc := link_column_documented sc _ lp Ha V).
  assert (G := link_column_good sc _ lp Ha V).
  unfold documented_column in Dc. cbv zeta in Dc.
  destruct Dc as (_ & D1 & _ & _ & _ & D2 & _).
  unfold lsp_log_mean, lsp_log_std. cbn [lsp_value].
  split; [apply pow10_pos|]. split; [apply pow10_pos|]. split; [apply pow10_pos|].
  split; [apply Rmin_range; [apply lsp_value_range | lra]|].
  split; [split; [apply Rmin_glb_lt; [apply pow10_pos | lra] | apply Rmin_r]|].
  split; [split; [apply Rmin_glb_lt; [apply pow10_pos | lra] | apply Rmin_r]|].
  split; [apply Rmin_range; [apply lsp_value_range | lra]|].
  split; [| split].
  - split.
    + intros E. destruct (lp_muASD lp) as [| m]; [exact D1|]. exfalso. cbn [lsp_value] in E.
      assert (0 < Rmin (pow10 (lp_sigmaASD lp * v 1%nat + m)) 104) by (apply Rmin_glb_lt; [apply pow10_pos | lra]). lra.
    + intros Hn. assert (Q := documented_value_fun _ _ _ _ _ _ _ _ D1 Hn). rewrite Q. cbn [lsp_value].
      apply Rmin_left. lra.
  - split.
    + intros E. destruct (lp_muZSD lp) as [| m]; [exact D2|]. exfalso. cbn [lsp_value zsd_floor] in E.
      assert (0 < Rmin (pow10 (lp_sigmaZSD lp * v 6%nat + Rmax (-100) m)) 52) by (apply Rmin_glb_lt; [apply pow10_pos | lra]). lra.
    + intros Hn. assert (Q := documented_value_fun _ _ _ _ _ _ _ _ D2 Hn). rewrite Q. cbn [lsp_value zsd_floor].
      apply Rmin_left. lra.
  - intros Hd. assert (Nn := gc_ninf _ _ G). rewrite Hd in Nn. cbn in Nn.
    split.
    + destruct (lp_muASD lp) as [| m]; [discriminate Nn; left; reflexivity|]. apply Rmin_glb_lt; [apply pow10_pos | lra].
    + destruct (lp_muZSD lp) as [| m]; [discriminate Nn; right; reflexivity|]. apply Rmin_glb_lt; [apply pow10_pos | lra].
Qed.

(* ---- C60 ---- *)
Section Cov.
  Context (nut : nat) (Lx : nat -> matrix) (Lsp : nat -> matrix).
  Let V i u z := spatially_filtered nut Lsp (cross_filtered Lx z) u i.

  Lemma cross_basis w j u i : (j < 7)%nat ->
    cross_filtered Lx (basis w j) u i = if Nat.eqb u w then Lx u i j else 0.
  Proof.
    intros Hj. unfold cross_filtered, basis. destruct (Nat.eqb u w); cbn [andb].
    - rewrite (sumR_single 7 _ j Hj); [rewrite Nat.eqb_refl; ring|].
      intros k _ N. apply Nat.eqb_neq in N. rewrite N. ring.
    - apply sumR_zero. intros; ring.
  Qed.

  Lemma V_basis w j i u : (w < nut)%nat -> (j < 7)%nat -> V i u (basis w j) = Lx w i j * Lsp i u w.
  Proof.
    intros Hw Hj. unfold V, spatially_filtered. rewrite (sumR_single nut _ w Hw).
    - rewrite cross_basis, Nat.eqb_refl by exact Hj. reflexivity.
    - intros k _ N. rewrite cross_basis by exact Hj. apply Nat.eqb_neq in N. rewrite N. ring.
  Qed.

  Lemma V_linear i u : linear_in_draws nut (V i u).
  Proof.
    intros z. unfold V at 1. unfold spatially_filtered. apply sumR_ext. intros w Hw.
    unfold cross_filtered. rewrite Rmult_comm, <- sumR_scale. apply sumR_ext. intros j Hj.
    rewrite (V_basis w j i u Hw Hj). ring.
  Qed.

  Lemma V_cov (C : nat -> matrix) i i' u u' : (i < 7)%nat -> (i' < 7)%nat ->
    (forall w, (w < nut)%nat -> is_cholesky 7 (C w) (Lx w)) ->
    covariance nut (V i u) (V i' u') = sumR nut (fun w => C w i i' * (Lsp i u w * Lsp i' u' w)).
  Proof.
    intros Hi Hi' HC. unfold covariance. apply sumR_ext. intros w Hw.
    rewrite <- (ch_prod _ _ _ (HC w Hw) i i' Hi Hi'), <- sumR_scale_r. apply sumR_ext. intros j Hj.
    rewrite !(V_basis w j) by assumption. ring.
  Qed.
End Cov.

(* a mean zenith spread of departure that is finite lies above the floor of the code *)
Definition zsd_above (e : env) (ul sb los : bool) (c : Z) : bool :=
  match plookup_opt (param_key "muZSD" (string_of_Z c)) (tbl e ul sb los) with
  | Some v => match pval_Q v with Some q => Qle_bool (Qmake (-100) 1) q | None => true end
  | None => false
  end.

Lemma zsd_above_ok : for_cols zsd_above = true.
Proof. vm_compute. reflexivity. Qed.

Lemma documented_zsd_above sc los m : accepted sc ->
  documented_value (sc_env sc) (sc_fc sc) (sc_dir sc) (sc_elev sc) los "muZSD" (Fin m) -> -100 <= m.
Proof.
  intros Ha Hx. assert (Ha' := Ha). destruct Ha' as [Hd Hb He Hl Ht Hnl].
  assert (H := for_cols_spec _ zsd_above_ok (sc_env sc) (dir_ul (sc_dir sc)) (is_s_band (sc_fc sc)) los
     (angle_col (sc_elev sc)) (angle_col_in _ He)).
  unfold zsd_above in H.
  destruct (plookup_opt (param_key "muZSD" (string_of_Z (angle_col (sc_elev sc))))
    (tbl (sc_env sc) (dir_ul (sc_dir sc)) (is_s_band (sc_fc sc)) los)) as [v |] eqn:E; [| discriminate].
  assert (Hv : plookup (param_key "muZSD" (angle_str (sc_elev sc)))
     (if los then sc_plos sc else sc_pnlos sc) = Ok v).
  { destruct los; [rewrite Ht | rewrite Hnl]; unfold plookup; unfold angle_str; rewrite E; reflexivity. }
  assert (K := documented_value_fun _ _ _ _ _ _ _ _ Hx (documented sc los "muZSD" v Ha Hv)).
  rewrite pval_Q_ext in K. destruct (pval_Q v) as [q |]; [| discriminate K].
  injection K as ->. apply Qle_bool_iff in H. apply Qle_Rle in H.
  assert (Q2R (Qmake (-100) 1) = -100) by (unfold Q2R; cbn; lra). lra.
Qed.

(* ---- factors of block matrices ---- *)
Lemma sumR_cut n f m : (m <= n)%nat -> (forall i, (m <= i)%nat -> f i = 0) -> sumR n f = sumR m f.
Proof.
  intros H Z. induction H as [|n H IH]; [reflexivity|]. rewrite sumR_S, IH, (Z n) by lia. ring.
Qed.

Lemma chol_col n A L i k : is_cholesky n A L -> (i < n)%nat -> (k < n)%nat ->
  sumR k (fun m => L i m * L k m) + L i k * L k k = A i k.
Proof.
  intros H Hi Hk. rewrite <- (ch_prod _ _ _ H i k Hi Hk), <- (sumR_S k (fun m => L i m * L k m)). symmetry.
  apply sumR_cut; [lia|]. intros m Hm. rewrite (ch_lower _ _ _ H k m) by lia. ring.
Qed.

Lemma chol_block n A L (P : nat -> link_state) : is_cholesky n A L ->
  (forall u w, (u < n)%nat -> (w < n)%nat -> P u <> P w -> A u w = 0) ->
  forall w, (w < n)%nat -> forall u, (u < n)%nat -> P u <> P w -> L u w = 0.
Proof.
  intros H Z. induction w as [w IH] using lt_wf_ind. intros Hw u Hu N.
  assert (E := chol_col n A L u w H Hu Hw). rewrite (Z u w Hu Hw N) in E.
  rewrite sumR_zero in E.
  - assert (D := ch_diag _ _ _ H w Hw). nra.
  - intros m Hm.
    assert (X : P u = P m \/ P u <> P m) by (destruct (P u), (P m); (left; reflexivity) || (right; discriminate)).
    destruct X as [X | X].
    + rewrite (IH m Hm ltac:(lia) w Hw) by congruence. ring.
    + rewrite (IH m Hm ltac:(lia) u Hu X). ring.
Qed.

Lemma chol_same n A B L M : is_cholesky n A L -> is_cholesky n B M ->
  (forall i j, (i < n)%nat -> (j < n)%nat -> A i j = B i j) ->
  forall k, (k < n)%nat -> forall i, (i < n)%nat -> L i k = M i k.
Proof.
  intros HL HM E. induction k as [k IH] using lt_wf_ind. intros Hk.
  assert (F : forall i, (i < n)%nat -> L i k * L k k = M i k * M k k).
  { intros i Hi. assert (P := chol_col n A L i k HL Hi Hk). assert (Q := chol_col n B M i k HM Hi Hk).
    rewrite (sumR_ext k (fun m => L i m * L k m) (fun m => M i m * M k m)) in P.
    - rewrite (E i k Hi Hk) in P. lra.
    - intros m Hm. rewrite (IH m Hm ltac:(lia) i Hi), (IH m Hm ltac:(lia) k Hk). reflexivity. }
  assert (D := F k Hk). assert (D1 := ch_diag _ _ _ HL k Hk). assert (D2 := ch_diag _ _ _ HM k Hk).
  assert (K : L k k = M k k) by nra.
  intros i Hi. specialize (F i Hi). rewrite K in F. nra.
Qed.

Lemma unit_products n f g : sumR n (fun k => f k * f k) = 1 -> sumR n (fun k => g k * g k) = 1 ->
  Rabs (sumR n (fun k => f k * g k)) <= 1.
Proof.
  intros F G.
  assert (P : 0 <= sumR n (fun k => (f k - g k) * (f k - g k))) by (apply sumR_nonneg; intros; apply Rle_0_sqr).
  assert (M : 0 <= sumR n (fun k => (f k + g k) * (f k + g k))) by (apply sumR_nonneg; intros; apply Rle_0_sqr).
  rewrite (sumR_ext n _ (fun k => f k * f k + (g k * g k + - (2) * (f k * g k)))) in P by (intros; ring).
  rewrite (sumR_ext n _ (fun k => f k * f k + (g k * g k + 2 * (f k * g k)))) in M by (intros; ring).
  rewrite !sumR_plus, sumR_scale, F, G in P, M. apply Rabs_le. lra.
Qed.

Lemma C60_l sc st a dr st' C S Lx Lsp b s :
  constructed sc -> set_topology sc st a dr = (st', Ok true) ->
  cross_matrix st' = Ok C -> spatial_matrix st' = Ok S ->
  forall nut,
  (forall u, (u < nut)%nat -> is_cholesky 7 (C b s u) (Lx b s u)) ->
  (forall i, (i < 7)%nat -> is_cholesky nut (S b s i) (Lsp b s i)) ->
  exists los ind V, s_los st' = Some los /\ s_in st' = Some ind /\
    let state u := state_of (t_at ind b u) (los b s u) in
    (forall i u, linear_in_draws nut (V i u)) /\
    (forall z, exists f, sample_lsp st' nut Lx Lsp z = Ok f /\
       forall u, exists lp, documented_column sc (los b s u) lp /\
         l_ds (f b s u) = pow10 (lp_sigmaDS lp * V 0%nat u (z b s) + lp_muDS lp) /\
         l_asa (f b s u) = Rmin 104 (pow10 (lp_sigmaASA lp * V 2%nat u (z b s) + lp_muASA lp)) /\
         l_sf (f b s u) = pow10 (lp_sigmaSF lp * V 3%nat u (z b s) / 10) /\
         l_k (f b s u) = pow10 ((lp_sigmaK lp * V 4%nat u (z b s) + lp_muK lp) / 10) /\
         l_zsa (f b s u) = Rmin 52 (pow10 (lp_sigmaZSA lp * V 5%nat u (z b s) + lp_muZSA lp)) /\
         (forall m, lp_muASD lp = Fin m ->
            l_asd (f b s u) = Rmin 104 (pow10 (lp_sigmaASD lp * V 1%nat u (z b s) + m))) /\
         (forall m, lp_muZSD lp = Fin m ->
            l_zsd (f b s u) = Rmin 52 (pow10 (lp_sigmaZSD lp * V 6%nat u (z b s) + m)))) /\
    (forall i u u', (i < 7)%nat -> (u < nut)%nat -> (u' < nut)%nat ->
       covariance nut (V i u) (V i u') = S b s i u u') /\
    (forall i j u u', (i < 7)%nat -> (j < 7)%nat -> (u < nut)%nat -> (u' < nut)%nat -> state u <> state u' ->
       covariance nut (V i u) (V j u') = 0) /\
    (forall i j u, (i < 7)%nat -> (j < 7)%nat -> (u < nut)%nat -> (forall w, (w < u)%nat -> state w <> state u) ->
       covariance nut (V i u) (V j u) = C b s u i j) /\
    (forall i j u, (i < 7)%nat -> (j < 7)%nat -> (u < nut)%nat -> t_at ind b u = false ->
       exists rho, covariance nut (V i u) (V j u) = rho * C b s u i j /\ Rabs rho <= 1 /\
         ((forall v w, (v < nut)%nat -> (w < nut)%nat -> S b s i v w = S b s j v w) -> rho = 1)).
Proof.
  intros Hc H HC HS nut HLx HLs. assert (Ha := constructed_accepted sc Hc).
  destruct (C19_l sc st a dr st' Hc H) as (los & C' & L1 & HC' & P19).
  assert (C' = C) by congruence. subst C'.
  destruct (C20_l sc st a dr st' Hc H) as (ut & ind & los' & S' & _ & I1 & L1' & HS' & P20).
  assert (S' = S) by congruence. assert (los' = los) by congruence. subst S' los'.
  destruct (update_content _ _ _ _ _ Ha H) as (ut' & bs & ind' & p & _ & _ & _ & _ & _ & _ & _ & _ & _ & _ & _ & _ &
    (los' & L1'' & _ & cl & cn & K1 & K2 & K3 & _) & _).
  assert (los' = los) by congruence. subst los'.
  set (V := fun i u z => spatially_filtered nut (Lsp b s) (cross_filtered (Lx b s) z) u i).
  set (state := fun u => state_of (t_at ind b u) (los b s u)).
  assert (Sp : forall i, (i < 7)%nat -> (forall u, S b s i u u = 1) /\ forall u u', state u <> state u' -> S b s i u u' = 0).
  { intros i Hi. destruct (lsp_index_of i Hi) as (X & HX). destruct (P20 b s X i HX) as (_ & D & _ & N & _).
    split; [exact D | exact N]. }
  assert (Blk : forall i u w, (i < 7)%nat -> (u < nut)%nat -> (w < nut)%nat -> state u <> state w -> Lsp b s i u w = 0).
  { intros i u w Hi Hu Hw N. apply (chol_block nut (S b s i) (Lsp b s i) state (HLs i Hi)); try assumption.
    intros v v' _ _. apply (Sp i Hi). }
  assert (Sq : forall i u, (i < 7)%nat -> (u < nut)%nat -> sumR nut (fun w => Lsp b s i u w * Lsp b s i u w) = 1).
  { intros i u Hi Hu. rewrite (ch_prod _ _ _ (HLs i Hi) u u Hu Hu). apply (Sp i Hi). }
  assert (Cu : forall u w, los b s u = los b s w -> C b s u = C b s w).
  { intros u w E. unfold cross_matrix in HC. rewrite K3, L1 in HC. injection HC as <-. rewrite E. reflexivity. }
  exists los, ind, V. split; [exact L1|]. split; [exact I1|]. cbv zeta. split; [intros i u; apply V_linear|].
  split; [| split; [| split; [| split]]].
  - intros z. unfold sample_lsp. rewrite K3. eexists. split; [reflexivity|]. intros u.
    cbn [ls_mean ls_std]. unfold make_lsp. cbn [l_ds l_asd l_asa l_sf l_k l_zsa l_zsd].
    assert (Q : exists lp, (if los b s u then cl else cn) = lp /\ link_column sc (los b s u) = Ok lp).
    { destruct (los b s u); [exists cl | exists cn]; split; (reflexivity || assumption). }
    destruct Q as (lp & -> & Q). exists lp. split; [exact (link_column_documented sc _ lp Ha Q)|].
    unfold lsp_log_mean, lsp_log_std. cbn [lsp_value].
    fold (V 0%nat u (z b s)) (V 1%nat u (z b s)) (V 2%nat u (z b s)) (V 3%nat u (z b s)) (V 4%nat u (z b s))
      (V 5%nat u (z b s)) (V 6%nat u (z b s)).
    split; [reflexivity|]. split; [apply Rmin_comm|].
    split; [f_equal; unfold Rdiv; ring|]. split; [f_equal; unfold Rdiv; ring|].
    split; [apply Rmin_comm|]. split.
    + intros m ->. cbn [lsp_value]. apply Rmin_comm.
    + intros m Em. assert (Hm : -100 <= m).
      { apply (documented_zsd_above sc (los b s u) m Ha). rewrite <- Em.
        assert (Dc := link_column_documented sc _ lp Ha Q). unfold documented_column in Dc. cbv zeta in Dc. tauto. }
      rewrite Em. cbn [lsp_value zsd_floor]. rewrite Rmax_right by exact Hm. apply Rmin_comm.
  - intros i u u' Hi Hu Hu'. unfold V.
    rewrite (V_cov nut (Lx b s) (Lsp b s) (C b s) i i u u' Hi Hi HLx).
    rewrite <- (ch_prod _ _ _ (HLs i Hi) u u' Hu Hu'). apply sumR_ext. intros w _.
    destruct (P19 b s w) as (_ & D & _). cbv zeta in D. rewrite (D i Hi). ring.
  - intros i j u u' Hi Hj Hu Hu' N. unfold V.
    rewrite (V_cov nut (Lx b s) (Lsp b s) (C b s) i j u u' Hi Hj HLx). apply sumR_zero. intros w Hw.
    assert (X : state u = state w \/ state u <> state w)
      by (destruct (state u), (state w); (left; reflexivity) || (right; discriminate)).
    destruct X as [X | X].
    + rewrite (Blk j u' w Hj Hu' Hw); [ring|]. fold (state u) (state u') in N. congruence.
    + rewrite (Blk i u w Hi Hu Hw X). ring.
  - intros i j u Hi Hj Hu N. unfold V.
    assert (Off : forall k w, (k < 7)%nat -> (w < nut)%nat -> w <> u -> Lsp b s k u w = 0).
    { intros k w Hk Hw Nw. destruct (Nat.lt_ge_cases w u) as [Hl | Hl].
      - apply Blk; try assumption. apply not_eq_sym. exact (N w Hl).
      - apply (ch_lower _ _ _ (HLs k Hk)). lia. }
    assert (One : forall k, (k < 7)%nat -> Lsp b s k u u = 1).
    { intros k Hk. assert (P := Sq k u Hk Hu).
      rewrite (sumR_single nut _ u Hu) in P by (intros w Hw Nw; rewrite (Off k w Hk Hw Nw); ring).
      assert (Q := ch_diag _ _ _ (HLs k Hk) u Hu). nra. }
    rewrite (V_cov nut (Lx b s) (Lsp b s) (C b s) i j u u Hi Hj HLx).
    rewrite (sumR_single nut _ u Hu) by (intros w Hw Nw; rewrite (Off i w Hi Hw Nw); ring).
    rewrite !One by assumption. ring.
  - intros i j u Hi Hj Hu Ho. exists (sumR nut (fun w => Lsp b s i u w * Lsp b s j u w)). split; [| split].
    + unfold V. rewrite (V_cov nut (Lx b s) (Lsp b s) (C b s) i j u u Hi Hj HLx).
      rewrite Rmult_comm, <- sumR_scale. apply sumR_ext. intros w Hw.
      assert (X : state u = state w \/ state u <> state w)
        by (destruct (state u), (state w); (left; reflexivity) || (right; discriminate)).
      destruct X as [X | X].
      * f_equal. unfold state, state_of in X. rewrite Ho in X.
        rewrite (Cu w u); [reflexivity|]. destruct (t_at ind b w), (los b s u), (los b s w); congruence.
      * rewrite (Blk i u w Hi Hu Hw X). ring.
    + apply unit_products; apply Sq; assumption.
    + intros E. rewrite <- (Sq i u Hi Hu). apply sumR_ext. intros w Hw.
      rewrite (chol_same nut _ _ _ _ (HLs i Hi) (HLs j Hj) E w Hw u Hu). reflexivity.
Qed.

(* ---- with two UTs the requested cross-correlation is not reached ---- *)
Lemma full_call sc st ut bs uo bo uv ind l w d dr : accepted sc ->
  t_batch ut = t_batch bs -> t_num bs = 1%nat -> (1 <= t_batch bs)%nat ->
  t_batch ind = t_batch ut -> t_num ind = t_num ut ->
  exists st', set_topology sc st {| a_ut_loc := Some ut; a_bs_loc := Some bs; a_ut_ori := Some uo;
     a_bs_ori := Some bo; a_ut_vel := Some uv; a_in := Some ind; a_los := l; a_weather := w;
     a_doppler := d |} dr = (st', Ok true) /\
     s_ut_loc st' = Some ut /\ s_bs_loc st' = Some bs /\ s_ut_ori st' = Some uo /\ s_bs_ori st' = Some bo /\
     s_ut_vel st' = Some uv /\ s_in st' = Some ind.
Proof.
  intros Ha H1 H2 H3 H4 H5. unfold set_topology.
  cbn [a_ut_loc a_bs_loc a_in a_ut_ori a_bs_ori a_ut_vel given orb negb].
  unfold need_for_update. cbn [a_ut_loc given orb].
  cbn [store_args s_ut_loc s_bs_loc s_in a_ut_loc a_bs_loc a_in or_else a_weather].
  match goal with |- context [update_topology sc ?s ut bs ind ?ww dr] =>
    destruct (update_succeeds sc s ut bs ind ww dr Ha H1 H2 H3 H4 H5) as (st' & E) end.
  exists st'. split; [exact E|].
  unfold update_topology in E. 
  destruct (distance_2d ut bs); [| discriminate].
  destruct (distance_3d_and_angles _ ut bs); [| discriminate].
  destruct (sample_indoor _ _ _ _ _); [| discriminate].
  destruct (pv <- los_probability sc;; num_of pv); [| discriminate].
  destruct (compute_lsp_stat _ _ _); [| discriminate].
  destruct (compute_pathlosses _ _ _ _ _ _); [| discriminate].
  injection E as <-. repeat split; reflexivity.
Qed.

Definition two_uts (d : R) : topo_args :=
  {| a_ut_loc := Some (T 1 2 (fun _ u => V3 (d * INR u) 0 1.5)); a_bs_loc := Some (t1 (V3 0 0 600000));
     a_ut_ori := Some (T 1 2 (fun _ _ => V3 0 0 0)); a_bs_ori := Some (t1 (V3 0 0 0));
     a_ut_vel := Some (T 1 2 (fun _ _ => V3 0 0 0)); a_in := Some (T 1 2 (fun _ _ => false));
     a_los := Some true; a_weather := no_weather; a_doppler := None |}.

Lemma doc_qlook sc los name r : accepted sc -> In name requested ->
  documented_value (sc_env sc) (sc_fc sc) (sc_dir sc) (sc_elev sc) los name (Fin r) ->
  r = Q2R (qlook (sc_env sc) (dir_ul (sc_dir sc)) (is_s_band (sc_fc sc)) los (angle_col (sc_elev sc)) name).
Proof.
  intros Ha Hn Hx. assert (Ha' := Ha). destruct Ha' as [Hd Hb He Hl Ht Hnl].
  destruct (name_present (sc_env sc) (dir_ul (sc_dir sc)) (is_s_band (sc_fc sc)) los
     (angle_col (sc_elev sc)) name (angle_col_in _ He) Hn) as (v & H1 & _).
  assert (Hv : plookup (param_key name (angle_str (sc_elev sc)))
     (if los then sc_plos sc else sc_pnlos sc) = Ok v)
    by (destruct los; [rewrite Ht | rewrite Hnl]; exact H1).
  assert (E := documented_value_fun _ _ _ _ _ _ _ _ Hx (documented sc los name v Ha Hv)).
  unfold qlook. unfold plookup in H1. destruct (plookup_opt _ _) as [w |]; [| discriminate].
  injection H1 as ->. rewrite pval_Q_ext in E. destruct (pval_Q v); [| discriminate]. congruence.
Qed.

Lemma los_values : for_cols (fun e ul sb los c =>
  negb los || (Qeq_bool (qlook e ul sb los c "corrDSvsSF") (-2 # 5) &&
     Qeq_bool (qlook e ul sb los c "corrDistDS") 30 && Qeq_bool (qlook e ul sb los c "corrDistSF") 37 &&
     negb (Qle_bool (qlook e ul sb los c "sigmaDS") 0) && negb (Qle_bool (qlook e ul sb los c "sigmaSF") 0))) = true.
Proof. vm_compute. reflexivity. Qed.

Lemma los_values_R sc : accepted sc ->
  forall cs dd df sd sf,
  documented_value (sc_env sc) (sc_fc sc) (sc_dir sc) (sc_elev sc) true "corrDSvsSF" (Fin cs) ->
  documented_value (sc_env sc) (sc_fc sc) (sc_dir sc) (sc_elev sc) true "corrDistDS" (Fin dd) ->
  documented_value (sc_env sc) (sc_fc sc) (sc_dir sc) (sc_elev sc) true "corrDistSF" (Fin df) ->
  documented_value (sc_env sc) (sc_fc sc) (sc_dir sc) (sc_elev sc) true "sigmaDS" (Fin sd) ->
  documented_value (sc_env sc) (sc_fc sc) (sc_dir sc) (sc_elev sc) true "sigmaSF" (Fin sf) ->
  cs = - (2 / 5) /\ dd = 30 /\ df = 37 /\ 0 < sd /\ 0 < sf.
Proof.
  intros Ha cs dd df sd sf H1 H2 H3 H4 H5.
  apply doc_qlook in H1; [| exact Ha | unfold requested; cbn; tauto].
  apply doc_qlook in H2; [| exact Ha | unfold requested; cbn; tauto].
  apply doc_qlook in H3; [| exact Ha | unfold requested; cbn; tauto].
  apply doc_qlook in H4; [| exact Ha | unfold requested; cbn; tauto].
  apply doc_qlook in H5; [| exact Ha | unfold requested; cbn; tauto].
  assert (P := for_cols_spec _ los_values (sc_env sc) (dir_ul (sc_dir sc)) (is_s_band (sc_fc sc)) true
     (angle_col (sc_elev sc)) (angle_col_in _ (ac_elev sc Ha))). cbv beta in P. cbn [negb orb] in P.
  rewrite !andb_true_iff, !negb_true_iff in P. destruct P as ((((P1 & P2) & P3) & P4) & P5).
  apply Qeq_bool_iff, Qeq_eqR in P1, P2, P3. rewrite <- H1 in P1. rewrite <- H2 in P2. rewrite <- H3 in P3.
  split; [rewrite P1; unfold Q2R; cbn; lra|]. split; [rewrite P2; unfold Q2R; cbn; lra|].
  split; [rewrite P3; unfold Q2R; cbn; lra|].
  rewrite H4, H5, <- Q2R_0. split; apply Qlt_Rlt, Qnot_le_lt; intros L; apply Qle_bool_iff in L; congruence.
Qed.

Lemma cholesky_two (M L : matrix) r : is_cholesky 2 M L -> M 0%nat 0%nat = 1 -> M 1%nat 0%nat = r -> M 1%nat 1%nat = 1 ->
  L 1%nat 0%nat = r /\ L 1%nat 1%nat * L 1%nat 1%nat = 1 - r * r /\ 0 < L 1%nat 1%nat.
Proof.
  intros HL H00 H10 H11.
  assert (A := ch_prod _ _ _ HL 0%nat 0%nat ltac:(lia) ltac:(lia)).
  assert (B := ch_prod _ _ _ HL 1%nat 0%nat ltac:(lia) ltac:(lia)).
  assert (C := ch_prod _ _ _ HL 1%nat 1%nat ltac:(lia) ltac:(lia)).
  cbn [sumR] in A, B, C. rewrite (ch_lower _ _ _ HL 0%nat 1%nat ltac:(lia)) in A, B.
  assert (D0 := ch_diag _ _ _ HL 0%nat ltac:(lia)). assert (D1 := ch_diag _ _ _ HL 1%nat ltac:(lia)).
  rewrite H00 in A. rewrite H10 in B. rewrite H11 in C.
  assert (E : L 0%nat 0%nat = 1) by nra. rewrite E in B.
  assert (F : L 1%nat 0%nat = r) by lra. rewrite F in C. split; [exact F|]. split; [lra | exact D1].
Qed.

Lemma cov_scale n a b f g : covariance n (fun z => a * f z) (fun z => b * g z) = a * b * covariance n f g.
Proof.
  unfold covariance. rewrite <- sumR_scale. apply sumR_ext. intros u _. rewrite <- sumR_scale.
  apply sumR_ext. intros j _. ring.
Qed.

Lemma cov_ext n f f' g g' : (forall z, f z = f' z) -> (forall z, g z = g' z) -> covariance n f g = covariance n f' g'.
Proof.
  intros Hf Hg. unfold covariance. apply sumR_ext. intros u _. apply sumR_ext. intros j _.
  rewrite Hf, Hg. reflexivity.
Qed.

Lemma lin_zero n f : linear_in_draws n f -> f (fun _ _ => 0) = 0.
Proof.
  intros H. rewrite H. apply sumR_zero. intros u _. apply sumR_zero. intros; ring.
Qed.

Lemma two_ut_cov_at sc : constructed sc ->
  exists st' C S lp,
    set_topology sc (init_state sc) (two_uts 30) no_draws = (st', Ok true) /\ cross_matrix st' = Ok C /\ spatial_matrix st' = Ok S /\
    documented_column sc true lp /\
    (forall b s, exists Lx Lsp, (forall u, (u < 2)%nat -> is_cholesky 7 (C b s u) (Lx u)) /\
       (forall i, (i < 7)%nat -> is_cholesky 2 (S b s i) (Lsp i))) /\
    forall Lx Lsp F,
      (forall u, (u < 2)%nat -> is_cholesky 7 (C 0%nat 0%nat u) (Lx 0%nat 0%nat u)) ->
      (forall i, (i < 7)%nat -> is_cholesky 2 (S 0%nat 0%nat i) (Lsp 0%nat 0%nat i)) ->
      (forall z, sample_lsp st' 2 Lx Lsp (fun _ _ => z) = Ok (F z)) ->
      let ds z := log10 (l_ds (F z 0%nat 0%nat 1%nat)) - log10 (l_ds (F (fun _ _ => 0) 0%nat 0%nat 1%nat)) in
      let sf z := log10 (l_sf (F z 0%nat 0%nat 1%nat)) - log10 (l_sf (F (fun _ _ => 0) 0%nat 0%nat 1%nat)) in
      C 0%nat 0%nat 1%nat 0%nat 3%nat < 0 /\
      lp_sigmaDS lp * (lp_sigmaSF lp / 10) * C 0%nat 0%nat 1%nat 0%nat 3%nat < covariance 2 ds sf < 0.
Proof.
  intros Hc. assert (Ha := constructed_accepted sc Hc).
  destruct (full_call sc (init_state sc) (T 1 2 (fun _ u => V3 (30 * INR u) 0 1.5)) (t1 (V3 0 0 600000))
     (T 1 2 (fun _ _ => V3 0 0 0)) (t1 (V3 0 0 0)) (T 1 2 (fun _ _ => V3 0 0 0)) (T 1 2 (fun _ _ => false))
     (Some true) no_weather None no_draws Ha eq_refl eq_refl (le_n 1) eq_refl eq_refl)
    as (st' & E & E1 & _ & _ & _ & _ & E2).
  fold (two_uts 30) in E. exists st'.
  destruct (C19_l sc _ _ _ _ Hc E) as (los & C & L1 & HC & P19).
  destruct (C20_l sc _ _ _ _ Hc E) as (ut & ind & los' & S & U1 & U2 & L1' & HS & P20).
  assert (los' = los) by congruence. subst los'.
  assert (ut = T 1 2 (fun _ u => V3 (30 * INR u) 0 1.5)) by congruence. subst ut.
  assert (ind = T 1 2 (fun _ _ => false)) by congruence. subst ind. cbn [t_at t_num] in P20.
  destruct (los_semantics sc _ _ _ _ Hc E) as (los' & ind' & p & L2 & I2 & _ & LS).
  assert (los' = los) by congruence. subst los'. assert (ind' = T 1 2 (fun _ _ => false)) by congruence. subst ind'.
  assert (RL : s_req_los st' = Some true).
  { destruct (step_cases _ _ _ _ _ _ Ha E) as [(_ & _ & [m Hm]) | (_ & _ & I & _)]; [discriminate|].
    destruct I as (_ & _ & _ & _ & _ & _ & I & _). rewrite I. reflexivity. }
  assert (LT : forall b s u, los b s u = true) by (intros b s u; apply LS; rewrite RL; split; reflexivity).
  destruct (update_content _ _ _ _ _ Ha E) as (ut' & bs' & ind' & p' & _ & _ & _ & _ & _ & _ & _ & _ & _ & _ & _ & _ &
    (los' & L1'' & _ & cl & cn & K1 & K2 & K3 & _) & _).
  assert (los' = los) by congruence. subst los'.
  assert (Dc := link_column_documented sc true cl Ha K1).
  assert (HCv : forall b s u, C b s u = cross_corr cl).
  { intros b s u. unfold cross_matrix in HC. rewrite K3, L1 in HC. injection HC as <-. cbn [ls_col]. rewrite LT. reflexivity. }
  assert (Vd := cross_corr_valid sc true cl Ha K1). destruct Vd as (_ & _ & _ & _ & Vd).
  assert (C03 := Vd "DS" "SF" 0%nat 3%nat ltac:(cbn; tauto) LI_DS LI_SF).
  assert (Ddoc := corr_dist_doc sc true cl "DS" 0%nat Ha K1 LI_DS).
  assert (Fdoc := corr_dist_doc sc true cl "SF" 3%nat Ha K1 LI_SF).
  assert (Dc' := Dc). unfold documented_column in Dc'. cbv zeta in Dc'.
  destruct Dc' as (_ & _ & _ & _ & _ & _ & SD & _ & _ & SS & _).
  destruct (los_values_R sc Ha _ _ _ _ _ C03 Ddoc Fdoc SD SS) as (V1 & V2 & V3 & V4 & V5).
  exists C, S, cl. split; [exact E|]. split; [exact HC|]. split; [exact HS|]. split; [exact Dc|]. split.
  { intros b s.
    assert (HX : forall u, exists L, is_cholesky 7 (C b s u) L) by (intros u; destruct (P19 b s u) as (_ & _ & _ & _ & _ & Q); exact Q).
    assert (HY : forall i, (i < 7)%nat -> exists L, is_cholesky 2 (S b s i) L).
    { intros i Hi. destruct (lsp_index_of i Hi) as (X & HX'). destruct (P20 b s X i HX') as (_ & _ & _ & _ & _ & _ & Q).
      apply Q. intros u u' Hu Hu' Nu _. left. cbn [vx]. intros Eq. apply Nu. apply INR_eq. lra. }
    destruct (HX 0%nat) as (X0 & HX0). 
    assert (HY' : exists Ls : nat -> matrix, forall i, (i < 7)%nat -> is_cholesky 2 (S b s i) (Ls i)).
    { destruct (HY 0%nat ltac:(lia)) as (y0 & Y0). destruct (HY 1%nat ltac:(lia)) as (y1 & Y1).
      destruct (HY 2%nat ltac:(lia)) as (y2 & Y2). destruct (HY 3%nat ltac:(lia)) as (y3 & Y3).
      destruct (HY 4%nat ltac:(lia)) as (y4 & Y4). destruct (HY 5%nat ltac:(lia)) as (y5 & Y5).
      destruct (HY 6%nat ltac:(lia)) as (y6 & Y6).
      exists (fun i => match i with 0%nat => y0 | 1%nat => y1 | 2%nat => y2 | 3%nat => y3 | 4%nat => y4 | 5%nat => y5 | _ => y6 end).
      intros i Hi. do 7 (destruct i as [| i]; [assumption|]). lia. }
    destruct HY' as (Ls & HLs). exists (fun _ => X0), Ls. split; [| exact HLs].
    intros u _. rewrite HCv. rewrite HCv in HX0. exact HX0. }
  intros Lx Lsp F HLx HLs HF ds sf.
  set (V := fun i u z => spatially_filtered 2 (Lsp 0%nat 0%nat) (cross_filtered (Lx 0%nat 0%nat) z) u i).
  assert (Form : forall z, l_ds (F z 0%nat 0%nat 1%nat) = pow10 (lp_sigmaDS cl * V 0%nat 1%nat z + lp_muDS cl) /\
                           l_sf (F z 0%nat 0%nat 1%nat) = pow10 (lp_sigmaSF cl / 10 * V 3%nat 1%nat z + 0)).
  { intros z. specialize (HF z). unfold sample_lsp in HF. rewrite K3 in HF. injection HF as HF. rewrite <- HF.
    cbn [ls_mean ls_std]. rewrite LT. split; reflexivity. }
  assert (Eds : forall z, ds z = lp_sigmaDS cl * V 0%nat 1%nat z).
  { intros z. unfold ds. rewrite !(proj1 (Form _)), !log10_pow10.
    assert (Z := lin_zero _ _ (V_linear 2 (Lx 0%nat 0%nat) (Lsp 0%nat 0%nat) 0%nat 1%nat)).
    change (V 0%nat 1%nat (fun _ _ => 0) = 0) in Z. rewrite Z. ring. }
  assert (Esf : forall z, sf z = lp_sigmaSF cl / 10 * V 3%nat 1%nat z).
  { intros z. unfold sf. rewrite !(proj2 (Form _)), !log10_pow10.
    assert (Z := lin_zero _ _ (V_linear 2 (Lx 0%nat 0%nat) (Lsp 0%nat 0%nat) 3%nat 1%nat)).
    change (V 3%nat 1%nat (fun _ _ => 0) = 0) in Z. rewrite Z. ring. }
  rewrite (cov_ext 2 ds (fun z => lp_sigmaDS cl * V 0%nat 1%nat z) sf (fun z => lp_sigmaSF cl / 10 * V 3%nat 1%nat z) Eds Esf).
  rewrite cov_scale. unfold V.
  rewrite (V_cov 2 (Lx 0%nat 0%nat) (Lsp 0%nat 0%nat) (C 0%nat 0%nat) 0%nat 3%nat 1%nat 1%nat ltac:(lia) ltac:(lia) HLx).
  cbn [sumR]. rewrite !HCv, V1.
  assert (Sv : forall X i D, lsp_index X i -> documented_value (sc_env sc) (sc_fc sc) (sc_dir sc) (sc_elev sc) true ("corrDist" ++ X)%string (Fin D) ->
     S 0%nat 0%nat i 0%nat 0%nat = 1 /\ S 0%nat 0%nat i 1%nat 1%nat = 1 /\ S 0%nat 0%nat i 1%nat 0%nat = exp (- (30 / D))).
  { intros X i D HX HD. destruct (P20 0%nat 0%nat X i HX) as (_ & Q1 & _ & _ & Q2 & _). cbv zeta in Q1, Q2.
    split; [apply Q1|]. split; [apply Q1|].
    destruct (Q2 1%nat 0%nat D ltac:(rewrite !LT; reflexivity) ltac:(rewrite LT; exact HD)) as (_ & Q3).
    rewrite Q3. f_equal. unfold plane_distance. cbn [vx vy INR].
    replace ((30 * 1 - 30 * 0) ^ 2 + (0 - 0) ^ 2) with (30 ^ 2) by ring. rewrite sqrt_pow2 by lra. unfold Rdiv; ring. }
  rewrite V2 in Ddoc. rewrite V3 in Fdoc.
  destruct (Sv "DS" 0%nat 30 LI_DS Ddoc) as (A1 & A2 & A3).
  destruct (Sv "SF" 3%nat 37 LI_SF Fdoc) as (B1 & B2 & B3).
  destruct (cholesky_two _ _ _ (HLs 0%nat ltac:(lia)) A1 A3 A2) as (X1 & X2 & X3).
  destruct (cholesky_two _ _ _ (HLs 3%nat ltac:(lia)) B1 B3 B2) as (Y1 & Y2 & Y3).
  rewrite X1, Y1. set (r1 := exp (- (30 / 30))) in *. set (r2 := exp (- (30 / 37))) in *.
  assert (R1 : 0 < r1) by apply exp_pos. assert (R2 : r1 < r2) by (apply exp_increasing; lra).
  set (q1 := Lsp 0%nat 0%nat 0%nat 1%nat 1%nat) in *. set (q2 := Lsp 0%nat 0%nat 3%nat 1%nat 1%nat) in *.
  assert (D : (r1 - r2) * (r1 - r2) + (q1 - q2) * (q1 - q2) = 2 - 2 * (r1 * r2 + q1 * q2)) 
    by (replace ((r1 - r2) * (r1 - r2) + (q1 - q2) * (q1 - q2)) with (r1 * r1 + q1 * q1 + (r2 * r2 + q2 * q2) - 2 * (r1 * r2 + q1 * q2)) by ring; rewrite X2, Y2; ring).
  assert (D1 : 0 < (r1 - r2) * (r1 - r2)) by (apply Rsqr_pos_lt; lra). assert (D2 : 0 <= (q1 - q2) * (q1 - q2)) by apply Rle_0_sqr.
  assert (Dlt : r1 * r2 + q1 * q2 < 1) by lra.
  assert (Dpos : 0 < r1 * r2 + q1 * q2) by (apply Rplus_lt_0_compat; apply Rmult_lt_0_compat; lra).
  split; [lra|].
  assert (P : 0 < lp_sigmaDS cl * (lp_sigmaSF cl / 10)) by (apply Rmult_lt_0_compat; lra).
  set (k := lp_sigmaDS cl * (lp_sigmaSF cl / 10)) in *. set (t := r1 * r2 + q1 * q2) in *.
  replace (0 + - (2 / 5) * (r1 * r2) + - (2 / 5) * (q1 * q2)) with (- (2 / 5) * t) by (unfold t; ring).
  split; nra.
Qed.

Lemma two_ut_cov_l sc : constructed sc ->
  exists a dr st' C S lp,
    set_topology sc (init_state sc) a dr = (st', Ok true) /\ cross_matrix st' = Ok C /\ spatial_matrix st' = Ok S /\
    documented_column sc true lp /\
    (forall b s, exists Lx Lsp, (forall u, (u < 2)%nat -> is_cholesky 7 (C b s u) (Lx u)) /\
       (forall i, (i < 7)%nat -> is_cholesky 2 (S b s i) (Lsp i))) /\
    forall Lx Lsp F,
      (forall u, (u < 2)%nat -> is_cholesky 7 (C 0%nat 0%nat u) (Lx 0%nat 0%nat u)) ->
      (forall i, (i < 7)%nat -> is_cholesky 2 (S 0%nat 0%nat i) (Lsp 0%nat 0%nat i)) ->
      (forall z, sample_lsp st' 2 Lx Lsp (fun _ _ => z) = Ok (F z)) ->
      let ds z := log10 (l_ds (F z 0%nat 0%nat 1%nat)) - log10 (l_ds (F (fun _ _ => 0) 0%nat 0%nat 1%nat)) in
      let sf z := log10 (l_sf (F z 0%nat 0%nat 1%nat)) - log10 (l_sf (F (fun _ _ => 0) 0%nat 0%nat 1%nat)) in
      C 0%nat 0%nat 1%nat 0%nat 3%nat < 0 /\
      lp_sigmaDS lp * (lp_sigmaSF lp / 10) * C 0%nat 0%nat 1%nat 0%nat 3%nat < covariance 2 ds sf < 0.
Proof.
  intros Hc. destruct (two_ut_cov_at sc Hc) as (st' & C & S & lp & H). exists (two_uts 30), no_draws, st', C, S, lp. exact H.
Qed.
