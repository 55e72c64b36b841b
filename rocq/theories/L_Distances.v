(* Lemmas for C97: the 2D distance and the 3D distance reported for the same link. *)
From Coq Require Import Reals String List Bool Arith ZArith Lra Lia Machin.
From Verif Require Import M_Base L_Base M_Params M_Geometry M_Scenario S_Config S_Topology L_Scenario L_Params L_Trig L_Geometry L_Pathloss L_Fresh L_Topology M_Lsp M_Channel
  S_Channel L_Channel M_TopoGen M_Coeff S_Coeff S_TopoGen L_TopoGen L_TopoUse L_RaysEx.
Import ListNotations.
Open Scope string_scope.
Open Scope list_scope.
Open Scope R_scope.

(* ---- numbers ---- *)
Lemma sin_le_arg x : 0 <= x -> sin x <= x.
Proof.
  intros [H|<-]; [left; apply sin_lt_x; exact H|rewrite sin_0; lra].
Qed.

Lemma cos_ge_quadratic x : 0 <= x -> 1 - x * x / 2 <= cos x.
Proof.
  intros H. assert (E : cos x = 1 - 2 * sin (x / 2) * sin (x / 2)).
  { rewrite <- cos_2a_sin. f_equal. field. }
  rewrite E. pose proof (sin_le_arg (x / 2) ltac:(lra)) as U.
  destruct (Rle_dec 0 (sin (x / 2))) as [P|N].
  - nra.
  - assert (- (x / 2) <= sin (x / 2)).
    { destruct (Rle_dec x 2) as [L|L].
      - exfalso. apply N. apply sin_ge_0; [lra|]. pose proof PI2_3_2. lra.
      - pose proof (SIN_bound (x / 2)). lra. }
    nra.
Qed.

Lemma PI_upper : PI <= 3.2.
Proof.
  destruct (PI_2_3_7_ineq 1) as [_ U]. unfold PI_2_3_7_tg, Ratan_seq in U.
  cbn [Nat.mul Nat.add sum_f_R0 tg_alt pow] in U. unfold tg_alt in U. simpl in U. lra.
Qed.

(* low elevation angles *)
Lemma low_elevation e : 0 < e <= 20 ->
  0 < sin (deg_2_rad e) <= 0.3556 /\ 0.9367 <= cos (deg_2_rad e).
Proof.
  intros [L U]. pose proof PI_upper as PU. pose proof PI_RGT_0 as P0.
  assert (X : 0 < deg_2_rad e <= 0.3556) by (unfold deg_2_rad; split; nra).
  split; [split|].
  - apply sin_elev_pos. lra.
  - pose proof (sin_le_arg (deg_2_rad e) ltac:(lra)). lra.
  - pose proof (cos_ge_quadratic (deg_2_rad e) ltac:(lra)). nra.
Qed.

(* ---- plane geometry ---- *)
Lemma sum_sq_pos x y : 0 <= x * x + y * y.
Proof. nra. Qed.

Lemma plane_cauchy a b c d : a * c + b * d <= sqrt (a * a + b * b) * sqrt (c * c + d * d).
Proof.
  rewrite <- sqrt_mult by nra. destruct (Rle_dec 0 (a * c + b * d)) as [P|N].
  - apply Rsqr_incr_0_var; [|apply sqrt_pos]. unfold Rsqr. rewrite sqrt_sqrt by nra.
    pose proof (Rle_0_sqr (a * d - b * c)) as Q. unfold Rsqr in Q. nra.
  - pose proof (sqrt_pos ((a * a + b * b) * (c * c + d * d))). apply Rnot_le_lt in N. lra.
Qed.

Lemma plane_triangle a b c d :
  sqrt ((a + c) * (a + c) + (b + d) * (b + d)) <= sqrt (a * a + b * b) + sqrt (c * c + d * d).
Proof.
  pose proof (sqrt_pos (a * a + b * b)) as P1. pose proof (sqrt_pos (c * c + d * d)) as P2.
  apply Rsqr_incr_0_var; [|lra]. unfold Rsqr. rewrite sqrt_sqrt by apply sum_sq_pos.
  pose proof (plane_cauchy a b c d) as K.
  pose proof (sqrt_sqrt (a * a + b * b) (sum_sq_pos a b)). pose proof (sqrt_sqrt (c * c + d * d) (sum_sq_pos c d)). nra.
Qed.

(* a shift by at most w along both axes changes the distance from the origin by less than 1.5 w *)
Lemma plane_shift cx cy dx dy w : 0 <= w -> Rabs dx <= w -> Rabs dy <= w ->
  sqrt (cx * cx + cy * cy) - 1.5 * w <= sqrt ((cx + dx) * (cx + dx) + (cy + dy) * (cy + dy))
  <= sqrt (cx * cx + cy * cy) + 1.5 * w.
Proof.
  intros W X Y.
  assert (S : sqrt (dx * dx + dy * dy) <= 1.5 * w).
  { assert (dx * dx <= w * w /\ dy * dy <= w * w) as [A B].
    { split; [revert X; generalize dx|revert Y; generalize dy]; intros v V;
      unfold Rabs in V; destruct (Rcase_abs v); nra. }
    apply Rsqr_incr_0_var; [|lra]. unfold Rsqr. rewrite sqrt_sqrt by nra. nra. }
  split; [|pose proof (plane_triangle cx cy dx dy); lra].
  pose proof (plane_triangle (cx + dx) (cy + dy) (- dx) (- dy)) as T.
  replace (cx + dx + - dx) with cx in T by ring. replace (cy + dy + - dy) with cy in T by ring.
  replace (- dx * - dx + - dy * - dy) with (dx * dx + dy * dy) in T by ring. lra.
Qed.

(* ---- the slant range against a given distance ---- *)
Lemma slant_lt e h x : 0 < e <= 90 -> 0 < h -> 0 < x ->
  (slant_range e h < x <-> h ^ 2 + 2 * earth_radius * h < x ^ 2 + 2 * earth_radius * x * sin (deg_2_rad e)).
Proof.
  intros E H X. destruct (slant_root e h E H) as [P F]. destruct (sin_elev_pos e E) as [S _].
  set (d := slant_range e h) in *. set (s := sin (deg_2_rad e)) in *.
  assert (Rp : 0 < earth_radius) by (unfold earth_radius; lra). set (R0 := earth_radius) in *.
  assert (K : h ^ 2 + 2 * R0 * h = d ^ 2 + 2 * R0 * d * s) by (clear - F; lra).
  rewrite K. assert (RS : 0 < R0 * s) by nra. split; intros L.
  - assert (d * d < x * x) by nra. assert (R0 * s * d < R0 * s * x) by nra. lra.
  - destruct (Rlt_dec d x) as [Q|Q]; [exact Q|]. exfalso. assert (x <= d) by lra.
    assert (x * x <= d * d) by nra. assert (R0 * s * x <= R0 * s * d) by nra. lra.
Qed.

(* a UT on the ground in the direction the elevation angle asks for in the flat geometry *)
Lemma C97_centre_l : forall sc st a dr st' ut bs b u,
  constructed sc -> set_topology sc st a dr = (st', Ok true) ->
  s_ut_loc st' = Some ut -> s_bs_loc st' = Some bs ->
  let e := sc_elev sc in let h := vz (t_at bs b 0%nat) in
  vz (t_at bs 0%nat 0%nat) = h -> 0 < h -> vz (t_at ut b u) = 0 ->
  dist_2d (t_at ut b u) (t_at bs b 0%nat) * sin (deg_2_rad e) = h * cos (deg_2_rad e) ->
  exists d2 g, s_d2d st' = Some d2 /\ s_geo st' = Some g /\
    let d := vnorm (vsub (t_at ut b u) (t_at bs b 0%nat)) in
    g_d3d g b 0%nat u <= d /\ (g_d3d g b 0%nat u = d <-> e = 90) /\
    (g_d3d g b 0%nat u < d2 b 0%nat u <->
       2 * 6371000 * (1 - cos (deg_2_rad e)) * sin (deg_2_rad e) ^ 2
       < h * (cos (deg_2_rad e) ^ 2 - sin (deg_2_rad e) ^ 2)).
Proof.
  intros sc st a dr st' ut bs b u HC H LU LB e h HB HP HZ HD.
  assert (Ha := constructed_accepted sc HC).
  destruct (update_content _ _ _ _ _ Ha H)
    as (ut' & bs' & ind & p & U1 & U2 & _ & _ & _ & _ & _ & _ & _ & _ & D2 & (g & G1 & G2 & _) & _).
  assert (ut' = ut) by congruence. assert (bs' = bs) by congruence. subst ut' bs'.
  assert (HE : 0 < e <= 90) by (destruct (ac_elev sc Ha); unfold e; lra).
  eexists. exists g. split; [exact D2|]. split; [exact G1|]. cbv zeta beta. rewrite G2, HB. fold e.
  set (r := dist_2d (t_at ut b u) (t_at bs b 0%nat)) in *.
  assert (RP : 0 <= r) by apply sqrt_pos.
  destruct (sin_elev_pos e HE) as [S S1]. set (s := sin (deg_2_rad e)) in *. set (c := cos (deg_2_rad e)) in *.
  assert (SC : s * s + c * c = 1).
  { pose proof (sin2_cos2 (deg_2_rad e)) as T. unfold Rsqr in T. exact T. }
  assert (V : vnorm (vsub (t_at ut b u) (t_at bs b 0%nat)) = h / s).
  { assert (Q : r * r = sq (vx (t_at ut b u) - vx (t_at bs b 0%nat)) + sq (vy (t_at ut b u) - vy (t_at bs b 0%nat))).
    { unfold r, dist_2d. apply sqrt_sqrt. unfold sq. apply sum_sq_pos. }
    unfold sq in Q. unfold vnorm, vdot, vsub. cbn [vx vy vz]. rewrite HZ. fold h.
    match goal with |- sqrt ?x = _ => replace x with ((h / s) * (h / s)) end.
    - apply sqrt_square. apply Rlt_le, Rdiv_lt_0_compat; assumption.
    - transitivity (r * r + h * h); [|rewrite Q; ring].
      assert (RR : r = h * c / s) by (field_simplify_eq; lra). rewrite RR. field_simplify_eq; [|lra].
      nra. }
  rewrite V. assert (HS : 0 < h / s) by (apply Rdiv_lt_0_compat; assumption).
  assert (RV : 0 < earth_radius) by (unfold earth_radius; lra).
  assert (E90 : e = 90 <-> s = 1).
  { split; intros Z.
    - unfold s. rewrite Z. replace (deg_2_rad 90) with (PI / 2) by (unfold deg_2_rad; field). apply sin_PI2.
    - destruct (Req_dec e 90) as [Y|Y]; [exact Y|]. exfalso.
      assert (K : 0 < c). { unfold c. pose proof PI_RGT_0. apply cos_gt_0; unfold deg_2_rad; nra. }
      rewrite Z in SC. nra. }
  assert (EX : (h / s) ^ 2 + 2 * earth_radius * (h / s) * s = h ^ 2 / (s * s) + 2 * earth_radius * h) by (field; lra).
  assert (SQ : h ^ 2 <= h ^ 2 / (s * s)).
  { apply Rmult_le_reg_r with (s * s); [nra|]. replace (h ^ 2 / (s * s) * (s * s)) with (h ^ 2) by (field; lra).
    assert (0 < h ^ 2) by nra. assert (s * s <= 1) by nra. nra. }
  pose proof (slant_lt e h (h / s) HE HP HS) as SL. fold s in SL. rewrite EX in SL.
  assert (LE : slant_range e h <= h / s).
  { destruct (Req_dec s 1) as [Z|Z].
    - rewrite (proj2 E90 Z), slant_zenith, Z by exact HP. lra.
    - left. apply SL. assert (s * s < 1) by nra. assert (h ^ 2 < h ^ 2 / (s * s)); [|lra].
      apply Rmult_lt_reg_r with (s * s); [nra|]. replace (h ^ 2 / (s * s) * (s * s)) with (h ^ 2) by (field; lra).
      assert (0 < h ^ 2) by nra. nra. }
  split; [exact LE|]. split.
  - split; intros Z.
    + apply E90. destruct (Req_dec s 1) as [Y|Y]; [exact Y|]. exfalso.
      assert (slant_range e h < h / s); [|lra]. apply SL. assert (s * s < 1) by nra.
      assert (h ^ 2 < h ^ 2 / (s * s)); [|lra].
      apply Rmult_lt_reg_r with (s * s); [nra|]. replace (h ^ 2 / (s * s) * (s * s)) with (h ^ 2) by (field; lra).
      assert (0 < h ^ 2) by nra. nra.
    + rewrite (proj1 E90 Z), Z, slant_zenith by exact HP. lra.
  - assert (CP : 0 <= c).
    { unfold c. pose proof PI_RGT_0. apply cos_ge_0; unfold deg_2_rad; nra. }
    destruct (Req_dec r 0) as [Z|Z].
    + rewrite Z in HD |- *. assert (c = 0) by nra. assert (s * s = 1) by nra. destruct (slant_root e h HE HP) as [P _].
      split; intros Y; [lra|]. exfalso. replace (c ^ 2 - s ^ 2) with (-1) in Y by nra. nra.
    + assert (RP' : 0 < r) by lra. rewrite (slant_lt e h r HE HP RP'). fold s. change earth_radius with 6371000.
      assert (RR : r = h * c / s) by (field_simplify_eq; lra). rewrite RR.
      replace ((h * c / s) ^ 2 + 2 * 6371000 * (h * c / s) * s) with (h * ((h * c ^ 2 + 2 * 6371000 * c * s ^ 2) / s ^ 2)) by (field; lra).
      replace (h ^ 2 + 2 * 6371000 * h) with (h * ((h * s ^ 2 + 2 * 6371000 * s ^ 2) / s ^ 2)) by (field; lra).
      assert (SS : 0 < s ^ 2) by nra. split; intros Y.
      * apply Rmult_lt_reg_l in Y; [|exact HP]. apply Rmult_lt_reg_r in Y; [|apply Rinv_0_lt_compat; exact SS]. lra.
      * apply Rmult_lt_compat_l; [exact HP|]. apply Rmult_lt_compat_r; [apply Rinv_0_lt_compat; exact SS|]. lra.
Qed.

(* every link of every topology *)
Lemma C97_law_l : forall sc st a dr st' bs,
  constructed sc -> set_topology sc st a dr = (st', Ok true) -> s_bs_loc st' = Some bs ->
  let h := vz (t_at bs 0%nat 0%nat) in 0 < h ->
  exists d2 g, s_d2d st' = Some d2 /\ s_geo st' = Some g /\
    forall b s u, g_d3d g b s u < d2 b s u <->
      (6371000 + h) ^ 2 < 6371000 ^ 2 + d2 b s u ^ 2 + 2 * 6371000 * d2 b s u * sin (deg_2_rad (sc_elev sc)).
Proof.
  intros sc st a dr st' bs HC H LB h HP. assert (Ha := constructed_accepted sc HC).
  destruct (update_content _ _ _ _ _ Ha H)
    as (ut & bs' & ind & p & U1 & U2 & _ & _ & _ & _ & _ & _ & _ & _ & D2 & (g & G1 & G2 & _) & _).
  assert (bs' = bs) by congruence. subst bs'.
  assert (HE : 0 < sc_elev sc <= 90) by (destruct (ac_elev sc Ha); lra).
  eexists. exists g. split; [exact D2|]. split; [exact G1|]. intros b s u. rewrite G2. cbv beta. fold h.
  set (d := dist_2d (t_at ut b u) (t_at bs b s)). assert (DP : 0 <= d) by apply sqrt_pos.
  destruct (Req_dec d 0) as [Z|Z].
  - rewrite Z. destruct (slant_root (sc_elev sc) h HE HP) as [P _]. split; intros Y; [lra|nra].
  - rewrite (slant_lt (sc_elev sc) h d HE HP ltac:(lra)). change earth_radius with 6371000. split; intros Y; lra.
Qed.

(* ---- generated topologies ---- *)
(* what the channel reports for the links of a generated topology *)
Lemma generated_report : forall sc always c batch num_ut scenario a isd h el zmin zmax vmin vmax gdr t ut uo args dr z,
  constructed sc -> (1 <= batch)%nat ->
  resolved scenario a isd h el zmin zmax vmin vmax -> 0 < isd -> 0 < h -> 0 < el <= 90 -> proper_draws gdr ->
  gen_single_sector_topology batch num_ut scenario a gdr = Ok t -> handed_over t ut uo args ->
  (forall b u u', (b < batch)%nat -> (u < num_ut)%nat -> (u' < num_ut)%nat -> u <> u' ->
     gd_x gdr b u <> gd_x gdr b u' \/ gd_y gdr b u <> gd_y gdr b u') ->
  let '(c', r) := chan_set_topology sc always c args dr z in
  r = Ok tt /\ exists d2 g, s_d2d (c_st c') = Some d2 /\ s_geo (c_st c') = Some g /\
    forall b s u, g_d3d g b s u = slant_range (sc_elev sc) h /\
      h * cos (deg_2_rad el) / sin (deg_2_rad el) - 0.75 * isd <= d2 b s u
      <= h * cos (deg_2_rad el) / sin (deg_2_rad el) + 0.75 * isd.
Proof.
  intros sc always c batch num_ut scenario a isd h el zmin zmax vmin vmax gdr t ut uo args dr z
    HC HB R I H E D G HO DIS.
  pose proof (C70_l sc always c batch num_ut scenario a isd h el zmin zmax vmin vmax gdr t ut uo args dr z
    HC HB R I H E D G HO DIS) as K.
  destruct (chan_set_topology sc always c args dr z) as [c' r] eqn:CS. destruct K as [-> (g & G1 & G2)].
  split; [reflexivity|].
  destruct HO as (S1 & S2 & S3 & S4 & A1 & A2 & A3 & A4 & A5 & A6).
  pose proof (constructed_accepted _ HC) as HA.
  assert (CH : changes_topology args).
  { apply changes_iff. unfold channel_args. rewrite A1. reflexivity. }
  destruct (change_ok sc always c args dr z c' CS CH) as [ST _].
  destruct (update_content sc (c_st c) (channel_args args) dr _ HA ST)
    as (ut2 & bs2 & ind2 & p & K1 & K2 & _ & _ & _ & _ & _ & _ & _ & _ & D2 & _).
  destruct (generated batch num_ut scenario a isd h el zmin zmax vmin vmax gdr R H E D)
    as (t' & cx & cy & G' & CX & CY & CE & _ & B1 & B2 & B3 & U1 & U2 & U).
  rewrite G in G'. injection G' as <-.
  assert (NR : ~ rejected (Ok true : res bool)) by (intros [m Q]; discriminate Q).
  pose proof (acc_s_ut_loc sc HA _ _ _ _ _ ST NR) as L1. pose proof (acc_s_bs_loc sc HA _ _ _ _ _ ST NR) as L2.
  unfold channel_args in L1, L2. cbn [a_ut_loc a_bs_loc] in L1, L2. rewrite A1 in L1. rewrite A3 in L2.
  cbn [or_else] in L1, L2.
  assert (ut2 = ut) by congruence. assert (bs2 = tp_bs_loc t) by congruence. subst ut2 bs2.
  eexists. exists g. split; [exact D2|]. split; [exact G1|]. intros b s u. split; [apply G2|]. cbv beta.
  destruct (U b u) as (x & y & -> & -> & L & _). rewrite S3 in L. injection L as ->.
  rewrite B3. unfold dist_2d. cbn [vx vy]. unfold sq. rewrite !Rminus_0_r.
  destruct (sin_elev_pos el E) as [S _].
  replace (h * cos (deg_2_rad el) / sin (deg_2_rad el)) with (sqrt (cx * cx + cy * cy)) by (field_simplify_eq; lra).
  assert (W : forall v, 0 <= v < 1 -> Rabs (uniform (- isd / 2) (isd / 2) v) <= isd / 2).
  { intros v V. unfold uniform. apply Rabs_le. split; nra. }
  replace (0.75 * isd) with (1.5 * (isd / 2)) by lra.
  apply plane_shift; [lra| |]; apply W; apply D.
Qed.

Lemma C97_high_l : forall sc always c batch num_ut scenario a isd h el zmin zmax vmin vmax gdr t ut uo args dr z,
  constructed sc -> (1 <= batch)%nat ->
  resolved scenario a isd h el zmin zmax vmin vmax -> 0 < isd -> 0 < h -> 0 < el <= 90 -> proper_draws gdr ->
  gen_single_sector_topology batch num_ut scenario a gdr = Ok t -> handed_over t ut uo args ->
  (forall b u u', (b < batch)%nat -> (u < num_ut)%nat -> (u' < num_ut)%nat -> u <> u' ->
     gd_x gdr b u <> gd_x gdr b u' \/ gd_y gdr b u <> gd_y gdr b u') ->
  h * cos (deg_2_rad el) + isd * sin (deg_2_rad el) <= h * sin (deg_2_rad el) ->
  let '(c', r) := chan_set_topology sc always c args dr z in
  r = Ok tt /\ exists d2 g, s_d2d (c_st c') = Some d2 /\ s_geo (c_st c') = Some g /\
    forall b s u, d2 b s u < g_d3d g b s u.
Proof.
  intros sc always c batch num_ut scenario a isd h el zmin zmax vmin vmax gdr t ut uo args dr z
    HC HB R I H E D G HO DIS HI.
  pose proof (generated_report sc always c batch num_ut scenario a isd h el zmin zmax vmin vmax gdr t ut uo args dr z
    HC HB R I H E D G HO DIS) as K.
  destruct (chan_set_topology sc always c args dr z) as [c' r]. destruct K as [K (d2 & g & D2 & G1 & X)].
  split; [exact K|]. exists d2, g. split; [exact D2|]. split; [exact G1|]. intros b s u.
  destruct (X b s u) as [-> [_ L]]. assert (HA := constructed_accepted sc HC).
  assert (HE : 0 < sc_elev sc <= 90) by (destruct (ac_elev sc HA); lra).
  pose proof (slant_ge_h (sc_elev sc) h HE H). destruct (sin_elev_pos el E) as [S _].
  assert (h * cos (deg_2_rad el) / sin (deg_2_rad el) <= h - isd); [|lra].
  apply Rmult_le_reg_r with (sin (deg_2_rad el)); [exact S|].
  replace (h * cos (deg_2_rad el) / sin (deg_2_rad el) * sin (deg_2_rad el)) with (h * cos (deg_2_rad el)) by (field; lra).
  lra.
Qed.

Lemma C97_low_l : forall sc always c batch num_ut scenario a isd h el zmin zmax vmin vmax gdr t ut uo args dr z,
  constructed sc -> (1 <= batch)%nat ->
  resolved scenario a isd h el zmin zmax vmin vmax -> 0 < isd -> 600000 <= h -> 0 < el <= 20 -> proper_draws gdr ->
  gen_single_sector_topology batch num_ut scenario a gdr = Ok t -> handed_over t ut uo args ->
  (forall b u u', (b < batch)%nat -> (u < num_ut)%nat -> (u' < num_ut)%nat -> u <> u' ->
     gd_x gdr b u <> gd_x gdr b u' \/ gd_y gdr b u <> gd_y gdr b u') ->
  sc_elev sc = el -> isd <= 0.4 * h ->
  let '(c', r) := chan_set_topology sc always c args dr z in
  r = Ok tt /\ exists d2 g, s_d2d (c_st c') = Some d2 /\ s_geo (c_st c') = Some g /\
    forall b s u, g_d3d g b s u < d2 b s u.
Proof.
  intros sc always c batch num_ut scenario a isd h el zmin zmax vmin vmax gdr t ut uo args dr z
    HC HB R I H E D G HO DIS EE HI.
  pose proof (generated_report sc always c batch num_ut scenario a isd h el zmin zmax vmin vmax gdr t ut uo args dr z
    HC HB R I ltac:(lra) ltac:(lra) D G HO DIS) as K.
  destruct (chan_set_topology sc always c args dr z) as [c' r]. destruct K as [K (d2 & g & D2 & G1 & X)].
  split; [exact K|]. exists d2, g. split; [exact D2|]. split; [exact G1|]. intros b s u.
  destruct (X b s u) as [-> [L _]]. rewrite EE.
  destruct (low_elevation el E) as [[S0 S1] C0].
  set (sn := sin (deg_2_rad el)) in *. set (cs := cos (deg_2_rad el)) in *.
  apply Rlt_le_trans with (h * cs / sn - 0.3 * h); [|lra].
  assert (QE : h * cs / sn - 0.3 * h = h * (cs / sn - 0.3)) by (field; lra). rewrite QE.
  assert (KB : 2.33 <= cs / sn - 0.3).
  { assert (2.63 <= cs / sn); [|lra]. apply Rmult_le_reg_r with sn; [exact S0|].
    replace (cs / sn * sn) with cs by (field; lra). lra. }
  assert (KS : (cs / sn - 0.3) * sn = cs - 0.3 * sn) by (field; lra).
  set (k := cs / sn - 0.3) in *.
  apply (slant_lt el h (h * k)); [lra|lra|nra|]. fold sn.
  replace (2 * earth_radius * (h * k) * sn) with (2 * earth_radius * h * (k * sn)) by ring. rewrite KS.
  change earth_radius with 6371000.
  assert (KK : 5.42 <= k * k) by nra.
  replace ((h * k) ^ 2) with (h * (h * (k * k))) by ring. replace (h ^ 2) with (h * h) by ring.
  assert (M : h + 2 * 6371000 < h * (k * k) + 2 * 6371000 * (cs - 0.3 * sn)).
  { assert (h * 5.42 <= h * (k * k)) by nra. lra. }
  assert (0 < h) by lra. nra.
Qed.

(* ---- examples ---- *)
Lemma constructed_at el : 10 <= el <= 90 -> exists sc, constructed sc /\ sc_elev sc = el.
Proof.
  intros HE. destruct (scenario_init SubUrban 2e9 ex_array ex_array "downlink" el true true true) as [sc | e] eqn:E.
  - exists sc. split; [repeat eexists; exact E|].
    destruct (init_accepted _ _ _ _ _ _ _ _ _ _ E) as (_ & _ & _ & _ & A & _). exact A.
  - exfalso.
    assert (H : is_ok (scenario_init SubUrban 2e9 ex_array ex_array "downlink" el true true true)).
    { apply construct_iff. unfold supported_config, in_S_band; cbn. repeat split; auto; lra. }
    rewrite E in H. destruct H as [? H]; discriminate || exact H.
Qed.

Definition elev_args (el : R) : gen_args :=
  {| ga_isd := None; ga_height := None; ga_elev := Some el; ga_min_h := None; ga_max_h := None;
     ga_indoor := None; ga_min_v := None; ga_max_v := None |}.
Lemma elev_resolved el : resolved "sur" (elev_args el) 5000 600000 el 1.5 1.5 0 0.
Proof.
  constructor; try (right; split; reflexivity); [|left; reflexivity].
  exists 5000. split; [constructor|right; split; reflexivity].
Qed.

Lemma elev_handed_over el : 0 < el <= 90 -> 0.1 * sin (deg_2_rad el) <= cos (deg_2_rad el) ->
  exists t ut uo args,
  gen_single_sector_topology 2 3 "sur" (elev_args el) spread_draws = Ok t /\ handed_over t ut uo args.
Proof.
  intros E LO.
  assert (H : 0 < 600000) by lra. assert (I : 0 <= 5000) by lra.
  assert (FR : 5000 / 2 < gd_base spread_draws * (600000 * cos (deg_2_rad el) / sin (deg_2_rad el))).
  { destruct (sin_elev_pos el E) as [S _]. cbn [spread_draws gd_base].
    assert (0.1 <= cos (deg_2_rad el) / sin (deg_2_rad el)).
    { apply Rmult_le_reg_r with (sin (deg_2_rad el)); [exact S|].
      replace (cos (deg_2_rad el) / sin (deg_2_rad el) * sin (deg_2_rad el)) with (cos (deg_2_rad el)) by (field; lra). lra. }
    unfold Rdiv in *. rewrite Rmult_assoc. lra. }
  destruct (generated 2 3 "sur" (elev_args el) 5000 600000 el 1.5 1.5 0 0 _ (elev_resolved el) H E spread_proper)
    as (t & cx & cy & G & _ & _ & _ & _ & _ & _ & _ & U1 & U2 & U).
  set (ut := T 2 3 (fun b u => match t_at (u_loc (tp_uts t)) b u with Some v => v | None => V3 0 0 0 end)).
  set (uo := T 2 3 (fun b u => match t_at (u_orient (tp_uts t)) b u with Some v => v | None => V3 0 0 0 end)).
  exists t, ut, uo, {| a_ut_loc := Some ut; a_bs_loc := Some (tp_bs_loc t); a_ut_ori := Some uo;
     a_bs_ori := Some (tp_bs_orient t); a_ut_vel := Some (u_vel (tp_uts t)); a_in := Some (u_in (tp_uts t));
     a_los := None; a_weather := no_weather; a_doppler := None |}.
  split; [exact G|]. unfold handed_over. cbn [a_ut_loc a_bs_loc a_ut_ori a_bs_ori a_ut_vel a_in].
  split; [symmetry; exact U1|]. split; [symmetry; exact U2|].
  split; [intros b u; destruct (U b u) as (x & y & _ & _ & L & _); cbn [ut t_at]; rewrite L; reflexivity|].
  split; [|repeat split].
  intros b u. destruct (U b u) as (x & y & _ & _ & L & O & _).
  pose proof (C45_front_l 2 3 "sur" (elev_args el) 5000 600000 el 1.5 1.5 0 0 _ t b u _ (elev_resolved el) I H E
                spread_proper FR G L) as X. cbn [vx] in X.
  cbn [uo t_at]. rewrite O. unfold atan_div. destruct (Req_EM_T x 0); [lra|]. reflexivity.
Qed.

Lemma spread_apart : forall b u u', (b < 2)%nat -> (u < 3)%nat -> (u' < 3)%nat -> u <> u' ->
  gd_x spread_draws b u <> gd_x spread_draws b u' \/ gd_y spread_draws b u <> gd_y spread_draws b u'.
Proof. intros b u u' _ _ _ N. left. cbn [spread_draws gd_x]. apply spread_distinct, N. Qed.

Lemma low_example_l : exists sc t ut uo args, constructed sc /\ sc_elev sc = 10 /\
  resolved "sur" (elev_args 10) 5000 600000 10 1.5 1.5 0 0 /\ proper_draws spread_draws /\
  gen_single_sector_topology 2 3 "sur" (elev_args 10) spread_draws = Ok t /\ handed_over t ut uo args /\
  (forall b u u', (b < 2)%nat -> (u < 3)%nat -> (u' < 3)%nat -> u <> u' ->
     gd_x spread_draws b u <> gd_x spread_draws b u' \/ gd_y spread_draws b u <> gd_y spread_draws b u') /\
  5000 <= 0.4 * 600000.
Proof.
  destruct (constructed_at 10) as (sc & HC & HE); [lra|].
  destruct (low_elevation 10 ltac:(lra)) as [[S0 S1] C0].
  destruct (elev_handed_over 10) as (t & ut & uo & args & G & HO); [lra|lra|].
  exists sc, t, ut, uo, args. split; [exact HC|]. split; [exact HE|]. split; [apply elev_resolved|].
  split; [apply spread_proper|]. split; [exact G|]. split; [exact HO|]. split; [apply spread_apart|lra].
Qed.

Lemma high_example_l : exists sc t ut uo args, constructed sc /\ sc_elev sc = 60 /\
  resolved "sur" (elev_args 60) 5000 600000 60 1.5 1.5 0 0 /\ proper_draws spread_draws /\
  gen_single_sector_topology 2 3 "sur" (elev_args 60) spread_draws = Ok t /\ handed_over t ut uo args /\
  (forall b u u', (b < 2)%nat -> (u < 3)%nat -> (u' < 3)%nat -> u <> u' ->
     gd_x spread_draws b u <> gd_x spread_draws b u' \/ gd_y spread_draws b u <> gd_y spread_draws b u') /\
  600000 * cos (deg_2_rad 60) + 5000 * sin (deg_2_rad 60) <= 600000 * sin (deg_2_rad 60).
Proof.
  destruct (constructed_at 60) as (sc & HC & HE); [lra|].
  assert (A : deg_2_rad 60 = PI / 3) by (unfold deg_2_rad; field).
  assert (C : cos (deg_2_rad 60) = 1 / 2) by (rewrite A; apply cos_PI3).
  assert (S : 0.86 <= sin (deg_2_rad 60) <= 1).
  { rewrite A. split; [|apply SIN_bound]. pose proof (sin2_cos2 (PI / 3)) as T. unfold Rsqr in T. rewrite cos_PI3 in T.
    assert (0 < sin (PI / 3)) by (pose proof PI_RGT_0; apply sin_gt_0; lra). nra. }
  destruct (elev_handed_over 60) as (t & ut & uo & args & G & HO); [lra|lra|].
  exists sc, t, ut, uo, args. split; [exact HC|]. split; [exact HE|]. split; [apply elev_resolved|].
  split; [apply spread_proper|]. split; [exact G|]. split; [exact HO|]. split; [apply spread_apart|lra].
Qed.

(* a UT on the ground 600 km away from the point below a satellite at 600 km *)
Lemma centre_example_l dr : exists sc st', constructed sc /\
  set_topology sc (init_state sc) (one_ut (V3 600000 0 0) false None) dr = (st', Ok true) /\
  s_ut_loc st' = Some (t1 (V3 600000 0 0)) /\ s_bs_loc st' = Some (t1 (V3 0 0 600000)) /\
  dist_2d (V3 600000 0 0) (V3 0 0 600000) * sin (deg_2_rad (sc_elev sc)) = 600000 * cos (deg_2_rad (sc_elev sc)).
Proof.
  destruct example_constructed as (sc & Hc & He & _).
  destruct (one_ut_call sc (V3 600000 0 0) false None dr Hc) as (st' & H & A & B & _).
  exists sc, st'. split; [exact Hc|]. split; [exact H|]. split; [exact A|]. split; [exact B|]. rewrite He.
  replace (deg_2_rad 45) with (PI / 4) by (unfold deg_2_rad; field). rewrite cos_PI4, sin_PI4. f_equal.
  unfold dist_2d, sq. cbn [vx vy]. replace ((600000 - 0) * (600000 - 0) + (0 - 0) * (0 - 0)) with (600000 * 600000) by ring.
  apply sqrt_square. lra.
Qed.
