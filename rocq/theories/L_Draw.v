(* Lemmas about pictures: C100, C101. *)
From Coq Require Import Reals String List Bool Arith Lia Lra.
From Verif Require Import M_Base M_Params M_Geometry M_Scenario M_Antenna M_Array M_Coeff M_Draw S_Coeff S_Ray S_Topology S_Antenna S_Draw
  L_Base L_Params L_Antenna L_Array L_Coeff L_Ray L_Scenario L_Fresh L_Topology.
Import ListNotations.
Open Scope string_scope.
Open Scope list_scope.
Open Scope R_scope.

Lemma any_far_iff t b : any_far (row t b) = true <-> far t b.
Proof.
  unfold any_far, row, far. rewrite existsb_exists. split.
  - intros (v & I & H). apply in_map_iff in I. destruct I as (i & <- & I). apply in_seq in I.
    exists i. split; [lia|]. rewrite !orb_true_iff, !Rltb_true in H. tauto.
  - intros (i & L & H). exists (t_at t b i). split; [apply in_map, in_seq; lia|].
    rewrite !orb_true_iff, !Rltb_true. tauto.
Qed.

Lemma vscale_1 v : vscale 1 v = v.
Proof. destruct v; unfold vscale; cbn. f_equal; ring. Qed.
Lemma to_km_scale v : to_km v = vscale (/ 1000) v.
Proof. unfold to_km, vscale. f_equal; field. Qed.

Lemma scaled_unit t b : exists k name, drawn_unit t b k name /\ unit_of (row t b) = name /\
  scaled (row t b) = map (fun i => vscale k (t_at t b i)) (seq 0 (t_num t)).
Proof.
  unfold scaled, unit_of. destruct (any_far (row t b)) eqn:E.
  - apply any_far_iff in E. exists (/ 1000), "[km]". split; [left; auto|]. split; [reflexivity|].
    unfold row. rewrite map_map. apply map_ext. intros i. apply to_km_scale.
  - exists 1, "[m]". split; [right; split; auto; rewrite <- any_far_iff, E; discriminate|]. split; [reflexivity|].
    unfold row. apply map_ext. intros i. symmetry. apply vscale_1.
Qed.

Lemma combine_map_seq {A} (f : nat -> A) n k : combine (map f (seq k n)) (seq k n) = map (fun i => (f i, i)) (seq k n).
Proof. revert k. induction n as [|n IH]; intros k; [reflexivity|]. cbn. rewrite IH. reflexivity. Qed.

Lemma texts_numbered t b k : node_texts (map (fun i => vscale k (t_at t b i)) (seq 0 (t_num t))) = numbered k t b.
Proof. unfold node_texts, numbered. rewrite map_length, seq_length. apply combine_map_seq. Qed.

Lemma pick_nodes t b k ix : (forall i, In i ix -> (i < t_num t)%nat) ->
  map (fun u => nth u (map (fun i => vscale k (t_at t b i)) (seq 0 (t_num t))) (V3 0 0 0)) ix = map (fun u => vscale k (t_at t b u)) ix.
Proof.
  intros H. apply map_ext_in. intros u Hu. apply H in Hu.
  rewrite nth_indep with (d' := vscale k (t_at t b 0%nat)) by (rewrite map_length, seq_length; exact Hu).
  rewrite (map_nth (fun i => vscale k (t_at t b i)) (seq 0 (t_num t)) 0%nat), seq_nth by exact Hu. reflexivity.
Qed.

Lemma where_in n p i : In i (np_where n p) <-> (i < n)%nat /\ p i = true.
Proof. unfold np_where. rewrite filter_In, in_seq. intuition lia. Qed.

(* the successful call unfolded *)
Lemma drawn_inv sc st a dr st' s b p ut bs : constructed sc -> set_topology sc st a dr = (st', Ok true) ->
  show_topology st' s b = Drawn p -> s_ut_loc st' = Some ut -> s_bs_loc st' = Some bs ->
  exists ind los uto bso ku nu ks ns,
    s_in st' = Some ind /\ s_los st' = Some los /\ s_ut_ori st' = Some uto /\ s_bs_ori st' = Some bso /\
    (b < t_batch ut)%nat /\ (s < t_num bs)%nat /\ t_num ind = t_num ut /\
    (forall u, los b s u = true -> t_at ind b u = false) /\
    drawn_unit ut b ku nu /\ drawn_unit bs b ks ns /\
    let ut_loc := map (fun i => vscale ku (t_at ut b i)) (seq 0 (t_num ut)) in
    let bs_loc := map (fun i => vscale ks (t_at bs b i)) (seq 0 (t_num bs)) in
    let delta := spreads ut_loc bs_loc in
    p = {| p_stations := bs_loc;
           p_los := map (fun u => vscale ku (t_at ut b u)) (np_where (t_num ut) (los b s));
           p_nlos := map (fun u => vscale ku (t_at ut b u)) (np_where (t_num ut) (fun u => negb (t_at ind b u) && negb (los b s u)));
           p_texts := numbered ks bs b ++ numbered ku ut b;
           p_lines := node_lines bs_loc (t_at bso b) delta ++ node_lines ut_loc (t_at uto b) delta;
           p_axis_x := "x " ++ nu; p_axis_y := "y " ++ nu; p_axis_z := "z " ++ ns |}.
Proof.
  intros Hc H D U B. assert (Ha := constructed_accepted sc Hc).
  destruct (update_content _ _ _ _ _ Ha H) as (ut' & bs' & ind & pl & U1 & U2 & U3 & N1 & N2 & N3 & N4 & N5 & _).
  rewrite U in U1. rewrite B in U2. injection U1 as <-. injection U2 as <-.
  destruct (los_semantics _ _ _ _ _ Hc H) as (los & ind' & q & L1 & L2 & _ & L3).
  rewrite U3 in L2. injection L2 as <-.
  unfold show_topology in D. rewrite U3, L1, U, B in D.
  destruct (s_ut_ori st') as [uto|] eqn:O1; [|discriminate D]. destruct (s_bs_ori st') as [bso|] eqn:O2; [|discriminate D].
  destruct (Nat.ltb b (t_batch ind)) eqn:E1; [cbn [negb] in D|discriminate D].
  destruct (Nat.ltb s (t_num bs)) eqn:E2; [cbn [negb] in D|discriminate D].
  destruct (negb (Nat.ltb b (t_batch uto)) || negb (Nat.ltb b (t_batch bso))); [discriminate D|].
  destruct (Nat.ltb (t_num bso) (t_num bs) || Nat.ltb (t_num uto) (t_num ut)); [discriminate D|].
  apply Nat.ltb_lt in E1. apply Nat.ltb_lt in E2.
  destruct (scaled_unit ut b) as (ku & nu & K1 & K2 & K3). destruct (scaled_unit bs b) as (ks & ns & K4 & K5 & K6).
  exists ind, los, uto, bso, ku, nu, ks, ns. do 4 (split; [assumption || reflexivity|]).
  split; [lia|]. split; [exact E2|]. split; [exact N5|].
  split; [intros u Lu; apply L3 in Lu; tauto|]. split; [exact K1|]. split; [exact K4|]. cbn zeta.
  injection D as <-. rewrite K2, K5, K3, K6.
  rewrite !texts_numbered. f_equal; apply pick_nodes; intros i Hi; apply where_in in Hi; tauto.
Qed.

Lemma nodup_app {A} (l m : list A) : NoDup l -> NoDup m -> (forall x, In x l -> ~ In x m) -> NoDup (l ++ m).
Proof.
  induction 1 as [|x l Hx Hl IH]; intros Hm D; [exact Hm|]. cbn. constructor.
  - rewrite in_app_iff. intros [K|K]; [tauto|]. apply (D x); [left; reflexivity|exact K].
  - apply IH; [exact Hm|]. intros y Hy. apply D. right. exact Hy.
Qed.

(* ---- C100: points, numbers and units ---- *)
Lemma C100_points_l sc st a dr st' s b p ut bs ind los : constructed sc -> set_topology sc st a dr = (st', Ok true) ->
  show_topology st' s b = Drawn p -> s_ut_loc st' = Some ut -> s_bs_loc st' = Some bs ->
  s_in st' = Some ind -> s_los st' = Some los ->
  exists ku nu ks ns l n,
    drawn_unit ut b ku nu /\ drawn_unit bs b ks ns /\
    p_axis_x p = ("x " ++ nu)%string /\ p_axis_y p = ("y " ++ nu)%string /\ p_axis_z p = ("z " ++ ns)%string /\
    p_stations p = map (fun i => vscale ks (t_at bs b i)) (seq 0 (t_num bs)) /\
    p_los p = map (fun u => vscale ku (t_at ut b u)) l /\ p_nlos p = map (fun u => vscale ku (t_at ut b u)) n /\
    NoDup (l ++ n) /\
    (forall u, In u l <-> (u < t_num ut)%nat /\ los b s u = true) /\
    (forall u, In u n <-> (u < t_num ut)%nat /\ los b s u = false /\ t_at ind b u = false) /\
    p_texts p = numbered ks bs b ++ numbered ku ut b.
Proof.
  intros Hc H D U B I L.
  destruct (drawn_inv _ _ _ _ _ _ _ _ _ _ Hc H D U B) as (ind' & los' & uto & bso & ku & nu & ks & ns & I' & L' & _ & _ & _ & _ & _ & LI & K1 & K2 & ->).
  rewrite I in I'. rewrite L in L'. injection I' as <-. injection L' as <-.
  exists ku, nu, ks, ns, (np_where (t_num ut) (los b s)), (np_where (t_num ut) (fun u => negb (t_at ind b u) && negb (los b s u))).
  cbn [p_axis_x p_axis_y p_axis_z p_stations p_los p_nlos p_texts].
  split; [exact K1|]. split; [exact K2|]. do 3 (split; [reflexivity|]). do 3 (split; [reflexivity|]).
  split; [|split; [intros u; apply where_in|split; [|reflexivity]]].
  - apply nodup_app; [apply NoDup_filter, seq_NoDup|apply NoDup_filter, seq_NoDup|].
    intros u A1 A2. apply where_in in A1. apply where_in in A2. rewrite andb_true_iff, !negb_true_iff in A2. destruct A1, A2 as (_ & _ & A2). congruence.
  - intros u. rewrite where_in, andb_true_iff, !negb_true_iff. tauto.
Qed.

(* UTs indoors: no point *)
Lemma count_split (n : nat) (p q : nat -> bool) :
  (length (filter p (seq 0 n)) + length (filter q (seq 0 n)) + length (filter (fun u => negb (p u) && negb (q u)) (seq 0 n))
   = n + length (filter (fun u => p u && q u) (seq 0 n)))%nat.
Proof.
  rewrite <- (seq_length n 0) at 4. generalize (seq 0 n). induction l as [|x l IH]; [reflexivity|].
  cbn [filter length]. destruct (p x), (q x); cbn [andb negb length]; lia.
Qed.

Lemma C100_indoor_l sc st a dr st' s b p ut bs ind u : constructed sc -> set_topology sc st a dr = (st', Ok true) ->
  show_topology st' s b = Drawn p -> s_ut_loc st' = Some ut -> s_bs_loc st' = Some bs -> s_in st' = Some ind ->
  (u < t_num ut)%nat -> t_at ind b u = true ->
  (length (p_los p) + length (p_nlos p) < t_num ut)%nat.
Proof.
  intros Hc H D U B I Hu Iu.
  destruct (los_semantics _ _ _ _ _ Hc H) as (los & ind' & q & L1 & L2 & _ & L3). rewrite I in L2. injection L2 as <-.
  destruct (C100_points_l _ _ _ _ _ _ _ _ _ _ _ _ Hc H D U B I L1)
    as (ku & nu & ks & ns & l & n & _ & _ & _ & _ & _ & _ & -> & -> & ND & IL & IN & _).
  rewrite !map_length, <- app_length.
  assert (K : (length (u :: l ++ n) <= length (seq 0 (t_num ut)))%nat).
  { apply NoDup_incl_length.
    - constructor; [|exact ND]. rewrite in_app_iff, IL, IN. intros [[_ K]|(_ & _ & K)]; [|congruence].
      apply L3 in K. destruct K. congruence.
    - intros x [<-|K]; [apply in_seq; lia|]. rewrite in_app_iff, IL, IN in K. apply in_seq. lia. }
  rewrite seq_length in K. cbn [length] in K. lia.
Qed.

(* stations in kilometres, UTs in metres *)
Lemma C100_units_l sc st a dr st' s b p ut bs ind u s' : constructed sc -> set_topology sc st a dr = (st', Ok true) ->
  show_topology st' s b = Drawn p -> s_ut_loc st' = Some ut -> s_bs_loc st' = Some bs -> s_in st' = Some ind ->
  far bs b -> ~ far ut b -> (u < t_num ut)%nat -> t_at ind b u = false -> (s' < t_num bs)%nat ->
  exists qu qs, In qu (p_los p ++ p_nlos p) /\ In (qu, u) (p_texts p) /\ In qs (p_stations p) /\ In (qs, s') (p_texts p) /\
    qu = t_at ut b u /\ qs = vscale (/ 1000) (t_at bs b s') /\
    (vz (t_at bs b s') < 1000 * vz (t_at ut b u) -> vz qs < vz qu).
Proof.
  intros Hc H D U B I F NF Hu Iu Hs.
  destruct (los_semantics _ _ _ _ _ Hc H) as (los & ind' & q & L1 & L2 & _ & L3). rewrite I in L2. injection L2 as <-.
  destruct (C100_points_l _ _ _ _ _ _ _ _ _ _ _ _ Hc H D U B I L1)
    as (ku & nu & ks & ns & l & n & K1 & K2 & _ & _ & _ & PS & PL & PN & _ & IL & IN & PT).
  destruct K1 as [(K1 & _)|(_ & -> & _)]; [contradiction|]. destruct K2 as [(_ & -> & _)|(K2 & _)]; [|contradiction].
  exists (vscale 1 (t_at ut b u)), (vscale (/ 1000) (t_at bs b s')).
  split; [|split; [|split; [|split; [|split; [apply vscale_1|split; [reflexivity|]]]]]].
  - rewrite PL, PN, <- map_app. apply (in_map (fun u => vscale 1 (t_at ut b u))). rewrite in_app_iff, IL, IN.
    destruct (los b s u); [left|right]; auto.
  - rewrite PT, in_app_iff. right. unfold numbered. apply (in_map (fun i => (vscale 1 (t_at ut b i), i))), in_seq. lia.
  - rewrite PS. apply (in_map (fun i => vscale (/ 1000) (t_at bs b i))), in_seq. lia.
  - rewrite PT, in_app_iff. left. unfold numbered. apply (in_map (fun i => (vscale (/ 1000) (t_at bs b i), i))), in_seq. lia.
  - unfold vscale; cbn [vz]. lra.
Qed.

(* ---- C100: coordinate systems ---- *)
Lemma spread_extent (f : vec3 -> R) l m : l <> [] -> (forall x, In x l <-> In x m) -> extent f m (spread (map f l)).
Proof.
  intros N E. destruct l as [|x l]; [contradiction|]. cbn [map spread]. split.
  - intros n k Hn Hk. apply E in Hn. apply E in Hk. apply (in_map f) in Hn. apply (in_map f) in Hk. cbn [map] in Hn, Hk.
    apply list_max_ge in Hn. apply list_min_le in Hk. lra.
  - assert (A := list_max_in (f x) (map f l)). assert (B := list_min_in (f x) (map f l)).
    change (f x :: map f l) with (map f (x :: l)) in A, B. apply in_map_iff in A. apply in_map_iff in B.
    destruct A as (n & <- & A). destruct B as (k & <- & B). exists n, k. rewrite <- !E. auto.
Qed.

Lemma extent_unique f l d d' : extent f l d -> extent f l d' -> d = d'.
Proof.
  intros (A & n & k & N & K & E) (A' & n' & k' & N' & K' & E').
  pose proof (A _ _ N' K'). pose proof (A' _ _ N K). lra.
Qed.

Lemma fl_sum_flat a b c x y z : a = 0 \/ b = 0 \/ c = 0 ->
  let s := fl_add (fl_add (square_ratio x a) (square_ratio y b)) (square_ratio z c) in s = NaN \/ s = Infinite.
Proof.
  unfold square_ratio. destruct (Req_EM_T a 0), (Req_EM_T b 0), (Req_EM_T c 0), (Req_EM_T x 0), (Req_EM_T y 0), (Req_EM_T z 0);
    intros [?|[?|?]]; try contradiction; cbn; auto.
Qed.

Lemma arrow_flat delta v : vx delta = 0 \/ vy delta = 0 \/ vz delta = 0 -> arrow delta v = None \/ arrow delta v = Some (V3 0 0 0).
Proof.
  intros H. unfold arrow. destruct (fl_sum_flat _ _ _ (vx v) (vy v) (vz v) H) as [-> | ->]; auto.
Qed.

Lemma arrow_ok delta v loc c : vx delta <> 0 -> vy delta <> 0 -> vz delta <> 0 -> v <> V3 0 0 0 ->
  along loc v (vx delta) (vy delta) (vz delta) c {| ln_from := loc; ln_to := option_map (vadd loc) (arrow delta v); ln_colour := c |}.
Proof.
  intros X Y Z V. unfold along, arrow, square_ratio. cbn [ln_from ln_to ln_colour].
  destruct (Req_EM_T (vx delta) 0); [contradiction|]. destruct (Req_EM_T (vy delta) 0); [contradiction|]. destruct (Req_EM_T (vz delta) 0); [contradiction|].
  cbn [fl_add]. set (q := (vx v / vx delta) ^ 2 + (vy v / vy delta) ^ 2 + (vz v / vz delta) ^ 2).
  assert (S : forall x, 0 <= x ^ 2) by (intros x; rewrite <- Rsqr_pow2; apply Rle_0_sqr).
  assert (Q : 0 < q).
  { assert (P : forall x d, d <> 0 -> x <> 0 -> 0 < (x / d) ^ 2).
    { intros x d Hd Hx. rewrite <- Rsqr_pow2. apply Rsqr_pos_lt. unfold Rdiv. apply Rmult_integral_contrapositive_currified; [exact Hx|apply Rinv_neq_0_compat, Hd]. }
    destruct v as [x y z]; cbn [vx vy vz] in *. unfold q.
    pose proof (S (x / vx delta)). pose proof (S (y / vy delta)). pose proof (S (z / vz delta)).
    destruct (Req_EM_T x 0) as [X0|X0]; [|pose proof (P x _ X X0); lra].
    destruct (Req_EM_T y 0) as [Y0|Y0]; [|pose proof (P y _ Y Y0); lra].
    destruct (Req_EM_T z 0) as [Z0|Z0]; [|pose proof (P z _ Z Z0); lra]. subst. contradiction V; reflexivity. }
  assert (SQ : sqrt q * sqrt q = q) by (apply sqrt_sqrt; lra). assert (SP : 0 < sqrt q) by (apply sqrt_lt_R0; exact Q).
  exists (0.1 / sqrt q). split; [apply Rdiv_lt_0_compat; lra|]. do 3 (split; [reflexivity|]).
  set (k := 0.1 / sqrt q). transitivity (k ^ 2 * q); [clearbody k; unfold q, Rdiv; ring|].
  unfold k. rewrite <- SQ at 2. field. lra.
Qed.

Lemma unit_axes o : axis_x o = orient o (V3 1 0 0) /\ axis_y o = orient o (V3 0 1 0) /\ axis_z o = orient o (V3 0 0 1).
Proof.
  rewrite !orient_rot. unfold axis_x, axis_y, axis_z, rot_pos, mat3_vec, forward_rotation_matrix, vdot; cbn [vx vy vz row1 row2 row3].
  split; [|split]; f_equal; ring.
Qed.

Lemma orient_not_0 o v : v <> V3 0 0 0 -> orient o v <> V3 0 0 0.
Proof.
  intros H K. apply H. apply (orient_inj o). rewrite K. unfold orient, rot_x, rot_y, rot_z; cbn [vx vy vz]. f_equal; ring.
Qed.

Lemma coordinate_system_ok loc o delta : vx delta <> 0 -> vy delta <> 0 -> vz delta <> 0 ->
  local_axes loc o (vx delta) (vy delta) (vz delta) (coordinate_system loc o delta).
Proof.
  intros X Y Z. unfold coordinate_system, local_axes. destruct (unit_axes o) as (-> & -> & ->).
  do 3 eexists. split; [reflexivity|].
  split; [|split]; apply arrow_ok; auto; apply orient_not_0; intros K; injection K; intros; lra.
Qed.

Lemma node_lines_groups k t b ort delta : vx delta <> 0 -> vy delta <> 0 -> vz delta <> 0 ->
  exists g, node_lines (map (fun i => vscale k (t_at t b i)) (seq 0 (t_num t))) ort delta = concat g /\
    Forall2 (fun n ls => local_axes (fst n) (ort (snd n)) (vx delta) (vy delta) (vz delta) ls) (numbered k t b) g.
Proof.
  intros X Y Z. unfold node_lines. rewrite texts_numbered, flat_map_concat_map. eexists. split; [reflexivity|].
  induction (numbered k t b) as [|n l IH]; cbn [map]; constructor; [|exact IH]. apply coordinate_system_ok; assumption.
Qed.

Lemma nodes_extent ku ks ut bs b f : (0 < t_num bs)%nat ->
  extent f (map fst (numbered ks bs b ++ numbered ku ut b))
    (spread (map f (map (fun i => vscale ku (t_at ut b i)) (seq 0 (t_num ut))) ++ map f (map (fun i => vscale ks (t_at bs b i)) (seq 0 (t_num bs))))).
Proof.
  intros N. rewrite <- map_app. apply spread_extent.
  - intros K. apply app_eq_nil in K. destruct K as [_ K]. destruct (t_num bs); [lia|discriminate].
  - intros x. unfold numbered. rewrite map_app, !map_map, !in_app_iff. cbn [fst]. tauto.
Qed.

Lemma C100_axes_l sc st a dr st' s b p ut bs uto bso dx dy dz : constructed sc -> set_topology sc st a dr = (st', Ok true) ->
  show_topology st' s b = Drawn p -> s_ut_loc st' = Some ut -> s_bs_loc st' = Some bs -> s_ut_ori st' = Some uto -> s_bs_ori st' = Some bso ->
  extent vx (map fst (p_texts p)) dx -> extent vy (map fst (p_texts p)) dy -> extent vz (map fst (p_texts p)) dz ->
  dx <> 0 -> dy <> 0 -> dz <> 0 ->
  exists ku ks gs gu, p_texts p = numbered ks bs b ++ numbered ku ut b /\ p_lines p = concat gs ++ concat gu /\
    Forall2 (fun n ls => local_axes (fst n) (t_at bso b (snd n)) dx dy dz ls) (numbered ks bs b) gs /\
    Forall2 (fun n ls => local_axes (fst n) (t_at uto b (snd n)) dx dy dz ls) (numbered ku ut b) gu.
Proof.
  intros Hc H D U B OU OB EX EY EZ X Y Z.
  destruct (drawn_inv _ _ _ _ _ _ _ _ _ _ Hc H D U B) as (ind & los & uto' & bso' & ku & nu & ks & ns & _ & _ & O1 & O2 & _ & NB & _ & _ & _ & _ & ->).
  rewrite OU in O1. rewrite OB in O2. injection O1 as <-. injection O2 as <-. cbn [p_texts p_lines] in *.
  assert (NB' : (0 < t_num bs)%nat) by lia.
  assert (DX := extent_unique _ _ _ _ EX (nodes_extent ku ks ut bs b vx NB')).
  assert (DY := extent_unique _ _ _ _ EY (nodes_extent ku ks ut bs b vy NB')).
  assert (DZ := extent_unique _ _ _ _ EZ (nodes_extent ku ks ut bs b vz NB')).
  set (delta := spreads _ _). change (dx = vx delta) in DX. change (dy = vy delta) in DY. change (dz = vz delta) in DZ.
  rewrite DX in X. rewrite DY in Y. rewrite DZ in Z.
  destruct (node_lines_groups ks bs b (t_at bso b) delta X Y Z) as (gs & -> & FS).
  destruct (node_lines_groups ku ut b (t_at uto b) delta X Y Z) as (gu & -> & FU).
  exists ku, ks, gs, gu. rewrite DX, DY, DZ. auto.
Qed.

Lemma flat_lines locs ort delta l : vx delta = 0 \/ vy delta = 0 \/ vz delta = 0 -> In l (node_lines locs ort delta) -> ~ visible l.
Proof.
  intros F H. unfold node_lines in H. apply in_flat_map in H. destruct H as (n & _ & H).
  assert (K : exists v c, l = {| ln_from := fst n; ln_to := option_map (vadd (fst n)) (arrow delta v); ln_colour := c |}).
  { unfold coordinate_system in H. cbn [In] in H. destruct H as [<-|[<-|[<-|[]]]]; do 2 eexists; reflexivity. }
  destruct K as (v & c & ->). intros (e & E1 & E2). cbn [ln_to ln_from] in *.
  destruct (arrow_flat delta v F) as [A|A]; rewrite A in E1; cbn [option_map] in E1; [discriminate|].
  injection E1 as <-. apply E2. destruct (fst n). unfold vadd; cbn. f_equal; ring.
Qed.

(* a scene without extent in one direction: no axis can be seen *)
Lemma C100_flat_l sc st a dr st' s b p ut bs f c : constructed sc -> set_topology sc st a dr = (st', Ok true) ->
  show_topology st' s b = Drawn p -> s_ut_loc st' = Some ut -> s_bs_loc st' = Some bs ->
  f = vx \/ f = vy \/ f = vz -> (forall n, In n (p_texts p) -> f (fst n) = c) ->
  forall l, In l (p_lines p) -> ~ visible l.
Proof.
  intros Hc H D U B F E l.
  destruct (drawn_inv _ _ _ _ _ _ _ _ _ _ Hc H D U B) as (ind & los & uto & bso & ku & nu & ks & ns & _ & _ & _ & _ & _ & NB & _ & _ & _ & _ & ->).
  cbn [p_texts p_lines] in *. assert (NB' : (0 < t_num bs)%nat) by lia. set (delta := spreads _ _).
  assert (Z : vx delta = 0 \/ vy delta = 0 \/ vz delta = 0).
  { assert (G : forall d, extent f (map fst (numbered ks bs b ++ numbered ku ut b)) d -> d = 0).
    { intros d (_ & n & k & N & K & <-). apply in_map_iff in N. apply in_map_iff in K.
      destruct N as (n' & <- & N). destruct K as (k' & <- & K). rewrite (E _ N), (E _ K). ring. }
    destruct F as [->|[->| ->]]; [left|right; left|right; right]; apply G, nodes_extent, NB'. }
  rewrite in_app_iff. intros [K|K]; revert K; apply flat_lines, Z.
Qed.

(* ---- C100: when something is drawn ---- *)
Lemma C100_before_l sc s b : show_topology (init_state sc) s b = NoneAttribute.
Proof. reflexivity. Qed.

Lemma C100_drawn_l sc st a dr st' s b ut bs : constructed sc -> set_topology sc st a dr = (st', Ok true) ->
  s_ut_loc st' = Some ut -> s_bs_loc st' = Some bs ->
  exists uto bso, s_ut_ori st' = Some uto /\ s_bs_ori st' = Some bso /\
  (t_batch uto = t_batch ut -> t_num uto = t_num ut -> t_batch bso = t_batch bs -> t_num bso = t_num bs ->
   ((exists p, show_topology st' s b = Drawn p) <-> (b < t_batch ut)%nat /\ (s < t_num bs)%nat) /\
   (~ ((b < t_batch ut)%nat /\ (s < t_num bs)%nat) -> show_topology st' s b = IndexError)).
Proof.
  intros Hc H U B. assert (Ha := constructed_accepted sc Hc).
  destruct (update_content _ _ _ _ _ Ha H) as (ut' & bs' & ind & pl & U1 & U2 & U3 & N1 & N2 & N3 & N4 & N5 & _).
  rewrite U in U1. rewrite B in U2. injection U1 as <-. injection U2 as <-.
  destruct (los_semantics _ _ _ _ _ Hc H) as (los & ind' & q & L1 & _ & _ & _).
  destruct (step_cases _ _ _ _ _ _ Ha H) as [(_ & _ & [m Hm])|(C & _ & S & _)]; [discriminate|].
  unfold complete_call in C. rewrite !andb_true_iff in C. destruct C as (((((_ & _) & _) & C1) & C2) & _).
  destruct S as (_ & _ & S3 & S4 & _). cbn [store_args s_ut_ori s_bs_ori] in S3, S4.
  assert (X : forall A (x y : option A), given x || given y = true -> exists v, or_else x y = Some v).
  { intros A [x|] [y|]; cbn; eauto; discriminate. }
  destruct (X _ _ _ C1) as [uto E1]. destruct (X _ _ _ C2) as [bso E2]. rewrite E1 in S3. rewrite E2 in S4.
  exists uto, bso. split; [exact S3|]. split; [exact S4|]. intros Q1 Q2 Q3 Q4.
  unfold show_topology. rewrite U3, L1, U, B, S3, S4, N4, Q1, Q3, <- N1, Q2, Q4, !Nat.ltb_irrefl.
  destruct (Nat.ltb b (t_batch ut)) eqn:Eb; cbn [negb orb].
  - destruct (Nat.ltb s (t_num bs)) eqn:Es; cbn [negb orb].
    + apply Nat.ltb_lt in Eb. apply Nat.ltb_lt in Es. split; [split; [auto|intros _; eexists; reflexivity]|tauto].
    + apply Nat.ltb_nlt in Es. split; [split; [intros [p K]; discriminate|tauto]|reflexivity].
  - apply Nat.ltb_nlt in Eb. split; [split; [intros [p K]; discriminate|tauto]|reflexivity].
Qed.

(* ---- C101 ---- *)
Lemma C101_array_l j1 p a : make_array j1 p = Ok a ->
  exists l m, partitions (pa_num_ant a) l m /\
    ap_first (show_array p a) = map (fun n => (vy (pa_pos a n), vz (pa_pos a n))) l /\
    ap_numbers (show_array p a) = map (fun n => (S n, (vy (pa_pos a n), vz (pa_pos a n)))) l /\
    ap_second (show_array p a) = map (fun n => (vy (pa_pos a n), vz (pa_pos a n))) m /\
    (m = [] \/ ap_second (show_array p a) = ap_first (show_array p a)).
Proof.
  intros H. destruct (array_partition _ _ _ H) as (P & _ & L). exists (pa_ind1 a), (pa_ind2 a). split; [exact P|].
  unfold show_array, gather_pos; cbn [ap_first ap_numbers ap_second]. rewrite !map_map.
  split; [reflexivity|]. split; [apply map_ext; intros n; unfold in_plane; f_equal; lia|].
  assert (D : pa_dual a = String.eqb (ar_pol p) "dual") by (apply (C39_positions_l j1 p a H)).
  rewrite <- D. destruct (pa_dual a) eqn:E.
  - split; [reflexivity|]. right. rewrite <- !(map_map (pa_pos a) in_plane). rewrite (C39_pairs_l _ _ _ H E). reflexivity.
  - destruct (pa_ind2 a); [|discriminate L]. split; [reflexivity|left; reflexivity].
Qed.

Lemma array_kind j1 p a : make_array j1 p = Ok a ->
  (ar_pol p = "single" /\ ar_type p = "V") \/ (ar_pol p = "single" /\ ar_type p = "H") \/
  (ar_pol p = "dual" /\ ar_type p = "VH") \/ (ar_pol p = "dual" /\ ar_type p = "cross").
Proof.
  intros H. assert (K : exists a, make_array j1 p = Ok a) by eauto. apply (C63_l j1 p) in K. destruct K as (K & _).
  cbn [In] in K. destruct K as [K|[K|[K|[K|[]]]]]; injection K as <- <-; auto.
Qed.

Lemma C101_marks_l j1 p a : make_array j1 p = Ok a -> ar_type p <> "VH" ->
  mark_fits (ap_mark1 (show_array p a)) (el_slant (pa_pol1 a)) /\
  (forall e, pa_pol2 a = Some e -> mark_fits (ap_mark2 (show_array p a)) (el_slant e)).
Proof.
  intros H N. destruct (C41_l _ _ _ H) as (V & HH & X & _). unfold show_array, array_marks; cbn [ap_mark1 ap_mark2].
  destruct (array_kind _ _ _ H) as [(-> & T)|[(-> & T)|[(_ & T)|(-> & T)]]]; [| |contradiction|]; rewrite T in *; cbn.
  - destruct (V eq_refl) as (-> & ->). split; [reflexivity|discriminate].
  - destruct (HH eq_refl) as (-> & ->). split; [reflexivity|discriminate].
  - destruct (X eq_refl) as (-> & e & -> & E). split; [lra|]. intros e' K. injection K as <-. rewrite E. lra.
Qed.

(* 'VH': neither mark fits, and the one meant for the vertical polarisation lies flat *)
Lemma C101_vh_l j1 p a : make_array j1 p = Ok a -> ar_type p = "VH" ->
  ap_mark1 (show_array p a) = Horizontal /\ ap_mark2 (show_array p a) = Vertical /\
  ~ mark_fits (ap_mark1 (show_array p a)) (el_slant (pa_pol1 a)) /\
  exists e, pa_pol2 a = Some e /\ ~ mark_fits (ap_mark2 (show_array p a)) (el_slant e).
Proof.
  intros H T. destruct (C41_vh_l _ _ _ H T) as (E1 & _ & e & E2 & E3 & _). pose proof PI_RGT_0.
  unfold show_array, array_marks; cbn [ap_mark1 ap_mark2].
  destruct (array_kind _ _ _ H) as [(-> & T')|[(-> & T')|[(-> & _)|(-> & T')]]]; try congruence. rewrite T. cbn.
  split; [reflexivity|]. split; [reflexivity|]. split; [rewrite E1; lra|]. exists e. split; [exact E2|]. rewrite E3. lra.
Qed.

Lemma C101_panel_l rows cols pol v h q : make_panel rows cols pol v h = Ok q ->
  length (ap_first (show_panel q)) = (rows * cols)%nat /\
  length (ap_second (show_panel q)) = (if String.eqb pol "dual" then rows * cols else 0)%nat /\
  length (ap_numbers (show_panel q)) = (rows * cols)%nat /\
  forall i j, (i < rows)%nat -> (j < cols)%nat ->
    let n := (j * rows + i)%nat in
    let x := ((INR j - (INR cols - 1) / 2) * h, ((INR rows - 1) / 2 - INR i) * v) in
    nth n (ap_first (show_panel q)) (0, 0) = x /\
    nth n (ap_numbers (show_panel q)) (0%nat, (0, 0)) = (S n, x) /\
    (pol = "dual" -> nth n (ap_second (show_panel q)) (0, 0) = x).
Proof.
  intros H. destruct (panel_properties rows cols pol v h) as [_ P]. destruct (P q H) as (_ & _ & _ & _ & pos & P1 & P2 & P3).
  unfold make_panel in H. destruct (String.eqb pol "single" || String.eqb pol "dual")%bool eqn:E; [|discriminate].
  injection H as <-. unfold panel_read in P1; cbn in P1. injection P1 as P1.
  unfold show_panel; cbn [pn_rows pn_cols pn_pol pn_pos ap_first ap_second ap_numbers]. rewrite P1.
  assert (LF : length (firstn (rows * cols) pos) = (rows * cols)%nat).
  { rewrite firstn_length, P2. destruct (String.eqb pol "single"); lia. }
  rewrite combine_length, !map_length, LF, seq_length, Nat.min_id.
  split; [reflexivity|]. split.
  { destruct (String.eqb_spec pol "dual") as [->|_]; [|reflexivity]. rewrite map_length, skipn_length, P2. cbn. lia. }
  split; [reflexivity|]. intros i j Hi Hj. cbn zeta. set (n := (j * rows + i)%nat).
  assert (Hn : (n < rows * cols)%nat) by (unfold n; nia).
  assert (A : nth n (map in_plane (firstn (rows * cols) pos)) (0, 0) = ((INR j - (INR cols - 1) / 2) * h, ((INR rows - 1) / 2 - INR i) * v)).
  { change (0, 0) with (in_plane (V3 0 0 0)). rewrite map_nth.
    rewrite <- (firstn_skipn (rows * cols) pos) in P3.
    assert (Z : (0 < (if String.eqb pol "single" then 1 else 2))%nat) by (destruct (String.eqb pol "single"); lia).
    specialize (P3 0%nat i j Z Hi Hj). rewrite app_nth1 in P3 by (rewrite LF; exact Hn). cbn [Nat.mul Nat.add] in P3.
    fold n in P3. rewrite P3. reflexivity. }
  split; [exact A|]. split.
  - rewrite combine_nth by (rewrite !map_length, seq_length, ?LF; reflexivity). rewrite A. f_equal.
    rewrite nth_indep with (d' := S 0) by (rewrite map_length, seq_length; exact Hn). rewrite map_nth, seq_nth by exact Hn. reflexivity.
  - intros ->. cbn [String.eqb] in *. change (0, 0) with (in_plane (V3 0 0 0)). cbn. 
    change (0, 0) with (in_plane (V3 0 0 0)). rewrite map_nth.
    rewrite <- (firstn_skipn (rows * cols) pos) in P3.
    specialize (P3 1%nat i j (Nat.lt_succ_diag_r 1) Hi Hj). rewrite app_nth2 in P3 by (rewrite LF; lia).
    rewrite LF in P3. replace (1 * (rows * cols) + (j * rows + i) - rows * cols)%nat with n in P3 by (unfold n; lia).
    rewrite P3. reflexivity.
Qed.

(* a UT 700 m up outdoors, one indoors, a satellite 600 km up *)
Definition scene_ut : tens vec3 := T 1 2 (fun _ u => if Nat.eqb u 0 then V3 100 50 700 else V3 200 (-50) 1.5).
Definition scene_args : topo_args :=
  {| a_ut_loc := Some scene_ut; a_bs_loc := Some (T 1 1 (fun _ _ => V3 0 0 600000));
     a_ut_ori := Some (T 1 2 (fun _ _ => V3 0 0 0)); a_bs_ori := Some (T 1 1 (fun _ _ => V3 0 (PI / 2) 0));
     a_ut_vel := Some (T 1 2 (fun _ _ => V3 0 0 0)); a_in := Some (T 1 2 (fun _ u => Nat.eqb u 1)); a_los := Some true;
     a_weather := no_weather; a_doppler := None |}.
(* one UT below the satellite *)
Definition nadir_args : topo_args :=
  {| a_ut_loc := Some (T 1 1 (fun _ _ => V3 0 0 1.5)); a_bs_loc := Some (T 1 1 (fun _ _ => V3 0 0 600000));
     a_ut_ori := Some (T 1 1 (fun _ _ => V3 0 0 0)); a_bs_ori := Some (T 1 1 (fun _ _ => V3 0 (PI / 2) 0));
     a_ut_vel := Some (T 1 1 (fun _ _ => V3 0 0 0)); a_in := Some (T 1 1 (fun _ _ => false)); a_los := Some true;
     a_weather := no_weather; a_doppler := None |}.

Lemma scene_set dr : exists sc st', constructed sc /\ set_topology sc (init_state sc) scene_args dr = (st', Ok true) /\
  s_ut_loc st' = Some scene_ut /\ s_bs_loc st' = Some (T 1 1 (fun _ _ => V3 0 0 600000)) /\
  s_in st' = Some (T 1 2 (fun _ u => Nat.eqb u 1)) /\
  s_ut_ori st' = Some (T 1 2 (fun _ _ => V3 0 0 0)) /\ s_bs_ori st' = Some (T 1 1 (fun _ _ => V3 0 (PI / 2) 0)).
Proof.
  destruct example_constructed as (sc & Hc & _). assert (Ha := constructed_accepted sc Hc). exists sc.
  assert (E : exists st', set_topology sc (init_state sc) scene_args dr = (st', Ok true)).
  { unfold set_topology. cbn [scene_args a_ut_loc a_bs_loc a_in a_ut_ori a_bs_ori a_ut_vel given orb negb].
    unfold need_for_update. cbn [scene_args a_ut_loc given orb].
    cbn [store_args s_ut_loc s_bs_loc s_in scene_args a_ut_loc a_bs_loc a_in or_else].
    apply update_succeeds; [exact Ha | reflexivity | reflexivity | cbn; lia | reflexivity | reflexivity]. }
  destruct E as (st' & E). exists st'. split; [exact Hc|]. split; [exact E|].
  destruct (step_cases _ _ _ _ _ _ Ha E) as [(_ & _ & [m Hm]) | (_ & _ & S & _)]; [discriminate|].
  destruct S as (S1 & S2 & S3 & S4 & _ & S6 & _). rewrite S1, S2, S3, S4, S6. repeat (split; [reflexivity|]). reflexivity.
Qed.

Lemma C100_example_l dr : exists sc st' p qs qu dx dy dz,
  constructed sc /\ set_topology sc (init_state sc) scene_args dr = (st', Ok true) /\ show_topology st' 0 0 = Drawn p /\
  far (T 1 1 (fun _ _ => V3 0 0 600000)) 0 /\ ~ far scene_ut 0 /\
  In qs (p_stations p) /\ In qu (p_los p ++ p_nlos p) /\ vz qs = 600 /\ vz qu = 700 /\
  (length (p_los p) + length (p_nlos p) = 1)%nat /\
  extent vx (map fst (p_texts p)) dx /\ extent vy (map fst (p_texts p)) dy /\ extent vz (map fst (p_texts p)) dz /\
  dx <> 0 /\ dy <> 0 /\ dz <> 0.
Proof.
  destruct (scene_set dr) as (sc & st' & Hc & E & U & B & I & OU & OB).
  destruct (C100_drawn_l _ _ _ _ _ 0 0 _ _ Hc E U B) as (uto & bso & O1 & O2 & D).
  rewrite OU in O1. rewrite OB in O2. injection O1 as <-. injection O2 as <-.
  destruct (D eq_refl eq_refl eq_refl eq_refl) as [(_ & D') _].
  destruct D' as [p P]; [cbn; lia|].
  assert (F : far (T 1 1 (fun _ _ => V3 0 0 600000)) 0) by (exists 0%nat; cbn; split; [lia|right; right; lra]).
  assert (NF : ~ far scene_ut 0).
  { intros ([|[|i]] & Hi & [K|[K|K]]); cbn in *; lra || lia. }
  destruct (C100_units_l _ _ _ _ _ _ _ _ _ _ _ 0%nat 0%nat Hc E P U B I F NF) as (qu & qs & Q1 & Q2 & Q3 & Q4 & Q5 & Q6 & _);
    [cbn; lia|reflexivity|cbn; lia|].
  assert (LT := C100_indoor_l _ _ _ _ _ _ _ _ _ _ _ 1%nat Hc E P U B I).
  destruct (drawn_inv _ _ _ _ _ _ _ _ _ _ Hc E P U B) as (ind & los & uto & bso & ku & nu & ks & ns & _ & _ & _ & _ & _ & _ & _ & _ & _ & _ & EP).
  exists sc, st', p, qs, qu,
    (spread (map vx (map (fun i => vscale ku (t_at scene_ut 0 i)) (seq 0 2)) ++ map vx (map (fun i => vscale ks (V3 0 0 600000)) (seq 0 1)))),
    (spread (map vy (map (fun i => vscale ku (t_at scene_ut 0 i)) (seq 0 2)) ++ map vy (map (fun i => vscale ks (V3 0 0 600000)) (seq 0 1)))),
    (spread (map vz (map (fun i => vscale ku (t_at scene_ut 0 i)) (seq 0 2)) ++ map vz (map (fun i => vscale ks (V3 0 0 600000)) (seq 0 1)))).
  split; [exact Hc|]. split; [exact E|]. split; [exact P|]. split; [exact F|]. split; [exact NF|]. split; [exact Q3|]. split; [exact Q1|].
  split; [rewrite Q6; cbn; lra|]. split; [rewrite Q5; reflexivity|].
  split.
  { specialize (LT ltac:(cbn; lia) eq_refl). rewrite <- app_length in *. cbn [scene_ut t_num] in LT.
    destruct (p_los p ++ p_nlos p) as [|x [|y l]]; [destruct Q1|reflexivity|cbn [length] in LT; lia]. }
  assert (X : forall f, extent f (map fst (p_texts p)) (spread (map f (map (fun i => vscale ku (t_at scene_ut 0 i)) (seq 0 2)) ++
                map f (map (fun i => vscale ks (V3 0 0 600000)) (seq 0 1))))).
  { intros f. rewrite EP. cbn [p_texts]. apply (nodes_extent ku ks scene_ut (T 1 1 (fun _ _ => V3 0 0 600000)) 0 f). cbn; lia. }
  split; [apply X|]. split; [apply X|]. split; [apply X|].
  assert (G : forall f d n m, extent f (map fst (p_texts p)) d -> In n (map fst (p_texts p)) -> In m (map fst (p_texts p)) -> f n <> f m -> d <> 0).
  { intros f d n m (A & _) N M Z K. pose proof (A _ _ N M). pose proof (A _ _ M N). apply Z. lra. }
  assert (N1 : In qu (map fst (p_texts p))) by (apply (in_map fst) in Q2; exact Q2).
  assert (N2 : In qs (map fst (p_texts p))) by (apply (in_map fst) in Q4; exact Q4).
  rewrite Q5 in N1. rewrite Q6 in N2.
  split; [|split]; (eapply G; [apply X|exact N1|exact N2|cbn; lra]).
Qed.

Lemma C100_nadir_l dr : exists sc st' p,
  constructed sc /\ set_topology sc (init_state sc) nadir_args dr = (st', Ok true) /\ show_topology st' 0 0 = Drawn p /\
  length (p_lines p) = 6%nat /\ (forall n, In n (p_texts p) -> vx (fst n) = 0) /\ forall l, In l (p_lines p) -> ~ visible l.
Proof.
  destruct example_constructed as (sc & Hc & _). assert (Ha := constructed_accepted sc Hc). exists sc.
  assert (E : exists st', set_topology sc (init_state sc) nadir_args dr = (st', Ok true)).
  { unfold set_topology. cbn [nadir_args a_ut_loc a_bs_loc a_in a_ut_ori a_bs_ori a_ut_vel given orb negb].
    unfold need_for_update. cbn [nadir_args a_ut_loc given orb].
    cbn [store_args s_ut_loc s_bs_loc s_in nadir_args a_ut_loc a_bs_loc a_in or_else].
    apply update_succeeds; [exact Ha | reflexivity | reflexivity | cbn; lia | reflexivity | reflexivity]. }
  destruct E as (st' & E). exists st'.
  destruct (step_cases _ _ _ _ _ _ Ha E) as [(_ & _ & [m Hm]) | (_ & _ & S & _)]; [discriminate|].
  destruct S as (S1 & S2 & S3 & S4 & _ & S6 & _).
  cbn [store_args nadir_args a_ut_loc a_bs_loc a_ut_ori a_bs_ori or_else s_ut_loc s_bs_loc s_ut_ori s_bs_ori] in S1, S2, S3, S4.
  destruct (C100_drawn_l _ _ _ _ _ 0 0 _ _ Hc E S1 S2) as (uto & bso & O1 & O2 & D).
  rewrite S3 in O1. rewrite S4 in O2. injection O1 as <-. injection O2 as <-.
  destruct (D eq_refl eq_refl eq_refl eq_refl) as [(_ & D') _].
  destruct D' as [p P]; [cbn; lia|]. exists p. split; [exact Hc|]. split; [exact E|]. split; [exact P|].
  assert (X : forall n, In n (p_texts p) -> vx (fst n) = 0).
  { destruct (drawn_inv _ _ _ _ _ _ _ _ _ _ Hc E P S1 S2) as (ind & los & uto & bso & ku & nu & ks & ns & _ & _ & _ & _ & _ & _ & _ & _ & _ & _ & EP).
    rewrite EP; cbn [p_texts]. intros n. cbn. intros [<-|[<-|[]]]; cbn; ring. }
  split.
  { destruct (drawn_inv _ _ _ _ _ _ _ _ _ _ Hc E P S1 S2) as (ind & los & uto & bso & ku & nu & ks & ns & _ & _ & _ & _ & _ & _ & _ & _ & _ & _ & EP).
    rewrite EP; cbn [p_lines]. reflexivity. }
  split; [exact X|]. exact (C100_flat_l _ _ _ _ _ _ _ _ _ _ vx 0 Hc E P S1 S2 (or_introl eq_refl) X).
Qed.

Lemma C101_example_l j1 ty : ty = "VH" \/ ty = "cross" ->
  exists a, make_array j1 (example_args "dual" ty) = Ok a /\ pa_num_ant a = 48%nat.
Proof.
  intros T. destruct (example_array j1 "dual" ty) as [a H]; [destruct T as [-> | ->]; cbn; auto|]. exists a. split; [exact H|].
  destruct (C39_positions_l _ _ _ H) as (D & N & _). change (pa_dual a = true) in D. rewrite D in N. rewrite N. reflexivity.
Qed.
