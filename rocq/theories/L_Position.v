(* Lemmas for C98: the accuracy of the positions of generated UTs. *)
From Coq Require Import Reals String List Bool Arith ZArith Lra Lia Machin.
From Verif Require Import M_Base L_Base M_Params M_Geometry M_Scenario S_Config S_Topology L_Scenario L_Params L_Trig L_Geometry L_Pathloss L_Fresh
  L_Topology M_Lsp S_Lsp L_Lsp M_Channel S_Channel L_Channel M_TopoGen M_Coeff S_Coeff S_TopoGen L_TopoGen L_TopoUse M_Float L_Float M_Position L_Distances.
Import ListNotations.
Open Scope string_scope.
Open Scope list_scope.
Open Scope R_scope.

Lemma abs_le_inv a b : Rabs a <= b -> - b <= a <= b.
Proof. intros H. pose proof (Rle_abs a). pose proof (Rle_abs (- a)). rewrite Rabs_Ropp in *. lra. Qed.

(* ---- rounding ---- *)
Lemma rnd_neg p x : rnd p (- x) = - rnd p x.
Proof.
  unfold rnd, Rltb. rewrite Ropp_involutive.
  destruct (Rlt_dec 0 (- x)), (Rlt_dec (- x) 0), (Rlt_dec 0 x), (Rlt_dec x 0); try lra.
Qed.

(* the error below a power of two *)
Lemma rnd_abs_err p k x : Rabs x < powerRZ 2 k -> Rabs (rnd p x - x) <= powerRZ 2 (k - p) / 2.
Proof.
  assert (POS : forall y, 0 < y -> y < powerRZ 2 k -> Rabs (rnd p y - y) <= powerRZ 2 (k - p) / 2).
  { intros y Y L. rewrite rnd_pos_eq by exact Y. pose proof (ulp_pos p y) as U.
    pose proof (nearest_err (y / ulp p y)) as N. set (n := IZR (nearest_int (y / ulp p y))) in *.
    assert (M : (mag y < k)%Z). { destruct (mag_spec y Y) as [A _]. apply two_z_lt. lra. }
    assert (UL : ulp p y <= powerRZ 2 (k - p)) by (unfold ulp; apply two_z_le; lia).
    replace (n * ulp p y - y) with ((n - y / ulp p y) * ulp p y) by (field; lra).
    rewrite Rabs_mult, (Rabs_right (ulp p y)) by lra. nra. }
  intros H. pose proof (two_z_pos (k - p)) as P2. destruct (Rtotal_order x 0) as [L|[E|G]].
  - rewrite Rabs_left in H by exact L. specialize (POS (- x) ltac:(lra) H). rewrite rnd_neg in POS.
    rewrite <- Rabs_Ropp. replace (- (rnd p x - x)) with (- rnd p x - - x) by ring. exact POS.
  - rewrite E. unfold rnd, Rltb. destruct (Rlt_dec 0 0); [lra|]. rewrite Rminus_0_r, Rabs_R0. lra.
  - rewrite Rabs_right in H by lra. apply POS; assumption.
Qed.

(* two numbers nearest to the same multiple of the spacing *)
Lemma rnd_same p k n x : (p <= k)%Z -> powerRZ 2 k <= x < powerRZ 2 (k + 1) ->
  Rabs (x - IZR n * powerRZ 2 (k - (p - 1))) < powerRZ 2 (k - (p - 1)) / 2 ->
  rnd p x = IZR n * powerRZ 2 (k - (p - 1)).
Proof.
  intros _ X H. pose proof (two_z_pos k). rewrite rnd_pos_eq by lra. unfold ulp. rewrite (mag_unique x k X).
  set (g := powerRZ 2 (k - (p - 1))) in *. assert (G : 0 < g) by apply two_z_pos.
  rewrite (nearest_unique (x / g) n); [reflexivity|].
  replace (x / g - IZR n) with ((x - IZR n * g) / g) by (field; lra).
  unfold Rdiv. rewrite Rabs_mult, (Rabs_right (/ g)) by (apply Rle_ge, Rlt_le, Rinv_0_lt_compat; exact G).
  apply Rmult_lt_reg_r with g; [exact G|]. rewrite Rmult_assoc, Rinv_l by lra. lra.
Qed.

(* ---- the beam centre at low orbits ---- *)
Lemma sin_ge_cubic x : 0 <= x <= 1 -> x - x * x * x / 6 <= sin x.
Proof.
  intros [L U]. destruct (SIN x L) as [A _]; [pose proof PI2_3_2; pose proof PI_RGT_0; lra|].
  unfold sin_lb, sin_approx, sin_term in A. simpl in A. 
  assert (Q : x - x * x * x / 6 <= x - x * x * x / 6 + x * x * x * x * x / 120 - x * x * x * x * x * x * x / 5040).
  { assert (0 <= x * x <= 1) by nra. assert (0 <= x * x * x * x * x) by (repeat apply Rmult_le_pos; lra).
    assert (x * x * x * x * x * x * x <= x * x * x * x * x).
    { replace (x * x * x * x * x * x * x) with (x * x * x * x * x * (x * x)) by ring. nra. }
    lra. }
  eapply Rle_trans; [exact Q|]. eapply Rle_trans; [|exact A]. right. field.
Qed.

Lemma sin_10 e : 10 <= e <= 90 -> 0.173 <= sin (deg_2_rad e).
Proof.
  intros [L U]. pose proof PI2_3_2 as P. pose proof PI_4 as P4.
  assert (M : sin (deg_2_rad 10) <= sin (deg_2_rad e)).
  { apply sin_incr_1; unfold deg_2_rad; nra. }
  assert (P3 : 3.14 <= PI).
  { destruct (PI_2_3_7_ineq 1) as [V _]. unfold PI_2_3_7_tg, Ratan_seq in V.
    cbn [Nat.mul Nat.add sum_f_R0 tg_alt pow] in V. unfold tg_alt in V. simpl in V. lra. }
  assert (D : 0.1744 <= deg_2_rad 10 <= 0.23) by (unfold deg_2_rad; lra).
  pose proof (sin_ge_cubic (deg_2_rad 10) ltac:(lra)) as C.
  set (y := deg_2_rad 10) in *. assert (0.173 <= y - y * y * y / 6); [|lra].
  assert (y * y <= 0.053) by nra. assert (y * y * y <= 0.053 * y) by nra. nra.
Qed.

(* ---- generated positions ---- *)
Lemma two_z_23 : powerRZ 2 23 = 8388608.
Proof. rewrite two_z_nonneg by lia. reflexivity. Qed.

Lemma C98_low_orbit_l : forall batch num_ut scenario a isd h el zmin zmax vmin vmax gdr t b u,
  resolved scenario a isd h el zmin zmax vmin vmax -> 0 <= isd <= 1e6 -> 0 < h <= 1.2e6 -> 10 <= el <= 90 -> proper_draws gdr ->
  gen_single_sector_topology batch num_ut scenario a gdr = Ok t ->
  exists v w, t_at (u_loc (tp_uts t)) b u = Some v /\ t_at (u_loc (tp_uts (stored_in 24 t))) b u = Some w /\
    Rabs (vx w - vx v) <= 0.25 /\ Rabs (vy w - vy v) <= 0.25 /\
    forall u', exists v' w', t_at (u_loc (tp_uts t)) b u' = Some v' /\ t_at (u_loc (tp_uts (stored_in 24 t))) b u' = Some w' /\
      Rabs (dist_2d w w' - dist_2d v v') <= 0.75 /\ (0.75 < dist_2d v v' -> vx w <> vx w' \/ vy w <> vy w').
Proof.
  intros batch num_ut scenario a isd h el zmin zmax vmin vmax gdr t b u R I H E D G.
  destruct (generated batch num_ut scenario a isd h el zmin zmax vmin vmax gdr R ltac:(lra) ltac:(lra) D)
    as (t' & cx & cy & G' & CX & CY & CE & _ & B1 & B2 & B3 & U1 & U2 & U).
  rewrite G in G'. injection G' as <-.
  assert (RHO : sqrt (cx * cx + cy * cy) <= 7e6).
  { pose proof (sin_10 el E) as S. pose proof (COS_bound (deg_2_rad el)) as C.
    pose proof (sqrt_pos (cx * cx + cy * cy)). nra. }
  assert (C0 : cx <= 7e6 /\ cy <= 7e6).
  { pose proof (sqrt_sqrt (cx * cx + cy * cy) (sum_sq_pos cx cy)) as Q. pose proof (sqrt_pos (cx * cx + cy * cy)).
    set (r := sqrt (cx * cx + cy * cy)) in *. assert (r * r <= 49e12) by nra. split; nra. }
  assert (ERR : forall c v, 0 <= c <= 7e6 -> 0 <= v < 1 ->
    Rabs (rnd 24 (c + uniform (- isd / 2) (isd / 2) v) - (c + uniform (- isd / 2) (isd / 2) v)) <= 0.25).
  { intros c v HC V. pose proof (rnd_abs_err 24 23 (c + uniform (- isd / 2) (isd / 2) v)) as K.
    rewrite two_z_23 in K. replace (powerRZ 2 (23 - 24) / 2) with 0.25 in K by (simpl; lra). apply K.
    unfold uniform. apply Rabs_def1; nra. }
  assert (POS : forall u, exists v w, t_at (u_loc (tp_uts t)) b u = Some v /\
    t_at (u_loc (tp_uts (stored_in 24 t))) b u = Some w /\
    Rabs (vx w - vx v) <= 0.25 /\ Rabs (vy w - vy v) <= 0.25).
  { intros w. destruct (U b w) as (x & y & -> & -> & L & _). eexists. eexists. split; [exact L|].
    split; [cbn [stored_in tp_uts u_loc t_at]; rewrite L; reflexivity|].
    cbn [position_fp vx vy]. split; apply ERR; try tauto; apply D. }
  destruct (POS u) as (v & w & L & L' & X & Y). exists v, w. split; [exact L|]. split; [exact L'|]. split; [exact X|].
  split; [exact Y|]. intros u'. destruct (POS u') as (v' & w' & M & M' & X' & Y'). exists v', w'.
  split; [exact M|]. split; [exact M'|].
  assert (DI : Rabs (dist_2d w w' - dist_2d v v') <= 0.75).
  { unfold dist_2d, sq.
    assert (T : forall p q p' q', Rabs (p - p') <= 0.5 -> Rabs (q - q') <= 0.5 ->
       sqrt (p * p + q * q) <= sqrt (p' * p' + q' * q') + 0.75).
    { intros p q p' q' P Q. pose proof (plane_triangle p' q' (p - p') (q - q')) as T.
      replace (p' + (p - p')) with p in T by ring. replace (q' + (q - q')) with q in T by ring.
      assert (sqrt ((p - p') * (p - p') + (q - q') * (q - q')) <= 0.75); [|lra].
      apply Rsqr_incr_0_var; [|lra]. unfold Rsqr. rewrite sqrt_sqrt by apply sum_sq_pos.
      apply abs_le_inv in P. apply abs_le_inv in Q. set (c := p - p') in *. set (d := q - q') in *. nra. }
    apply abs_le_inv in X. apply abs_le_inv in Y. apply abs_le_inv in X'. apply abs_le_inv in Y'.
    apply Rabs_le. split.
    - pose proof (T (vx v - vx v') (vy v - vy v') (vx w - vx w') (vy w - vy w')) as Q.
      assert (sqrt ((vx v - vx v') * (vx v - vx v') + (vy v - vy v') * (vy v - vy v')) <=
              sqrt ((vx w - vx w') * (vx w - vx w') + (vy w - vy w') * (vy w - vy w')) + 0.75); [|lra].
      apply Q; apply Rabs_le; lra.
    - pose proof (T (vx w - vx w') (vy w - vy w') (vx v - vx v') (vy v - vy v')) as Q.
      assert (sqrt ((vx w - vx w') * (vx w - vx w') + (vy w - vy w') * (vy w - vy w')) <=
              sqrt ((vx v - vx v') * (vx v - vx v') + (vy v - vy v') * (vy v - vy v')) + 0.75); [|lra].
      apply Q; apply Rabs_le; lra. }
  split; [exact DI|]. intros FAR.
  destruct (Req_dec (vx w) (vx w')) as [EX|]; [|left; assumption].
  destruct (Req_dec (vy w) (vy w')) as [EY|]; [|right; assumption]. exfalso.
  assert (Z : dist_2d w w' = 0).
  { unfold dist_2d. rewrite EX, EY. unfold sq. replace (_ + _) with 0 by ring. apply sqrt_0. }
  rewrite Z in DI. apply abs_le_inv in DI. lra.
Qed.

(* ---- the geostationary orbit ---- *)
Definition pair_draws (base x0 x1 : R) : gen_draws :=
  {| gd_base := base; gd_side := fun _ _ => 0; gd_x := fun _ u => match u with O => x0 | _ => x1 end; gd_y := fun _ _ => 1 / 2;
     gd_sector := fun _ _ => 0%Z; gd_z := fun _ _ => 0; gd_in := fun _ _ => 0;
     gd_angle := fun _ _ => 0; gd_speed := fun _ _ => 0 |}.

Lemma two_z_26 : powerRZ 2 26 = 67108864 /\ powerRZ 2 (26 + 1) = 134217728 /\ powerRZ 2 (26 - (24 - 1)) = 8.
Proof. split; [|split]; rewrite two_z_nonneg by lia; reflexivity. Qed.

Lemma collapse cx : 67108868 <= cx <= 134217716 ->
  exists dx, -3.5 <= dx <= 4.5 /\ rnd 24 (cx + dx) = rnd 24 (cx + (dx + 7)).
Proof.
  intros [L U]. destruct two_z_26 as (P1 & P2 & P3).
  destruct (archimed (cx / 8)) as [A B]. set (n := up (cx / 8)) in *.
  assert (G : cx < IZR n * 8 <= cx + 8) by lra.
  exists (IZR n * 8 - 3.5 - cx). split; [lra|].
  transitivity (IZR n * 8).
  - rewrite <- P3. apply rnd_same; [lia| |]; rewrite ?P1, ?P2, ?P3; [lra|]. apply Rabs_def1; lra.
  - symmetry. rewrite <- P3. apply rnd_same; [lia| |]; rewrite ?P1, ?P2, ?P3; [lra|]. apply Rabs_def1; lra.
Qed.

Lemma C98_geostationary_l : forall sc al c scenario a isd h el zmin zmax vmin vmax base,
  constructed sc -> resolved scenario a isd h el zmin zmax vmin vmax -> 24 <= isd -> 0 < h -> 0 < el <= 90 -> 0 <= base < 1 ->
  67108868 <= base * (h * cos (deg_2_rad el) / sin (deg_2_rad el)) <= 134217716 ->
  exists gdr t v w, proper_draws gdr /\ gd_base gdr = base /\ gen_single_sector_topology 1 2 scenario a gdr = Ok t /\
    t_at (u_loc (tp_uts t)) 0%nat 0%nat = Some v /\ t_at (u_loc (tp_uts t)) 0%nat 1%nat = Some w /\ dist_2d v w = 7 /\
    forall ut uo args l dr z, handed_over (stored_in 24 t) ut uo args -> a_los args = Some l ->
      snd (chan_set_topology sc al c args dr z) <> Ok tt.
Proof.
  intros sc al c scenario a isd h el zmin zmax vmin vmax base HC R I H E B X.
  destruct (collapse _ X) as (dx & DX & SAME). set (cx := base * (h * cos (deg_2_rad el) / sin (deg_2_rad el))) in *.
  set (gdr := pair_draws base (dx / isd + 1 / 2) ((dx + 7) / isd + 1 / 2)).
  assert (UD : forall d, -3.5 <= d <= 11.5 -> 0 <= d / isd + 1 / 2 < 1).
  { intros d DD. assert (- (1 / 2) <= d / isd < 1 / 2); [|lra]. assert (IP : 0 < isd) by lra. split.
    - apply Rmult_le_reg_r with isd; [lra|]. replace (d / isd * isd) with d by (field; lra). lra.
    - apply Rmult_lt_reg_r with isd; [lra|]. replace (d / isd * isd) with d by (field; lra). lra. }
  assert (D : proper_draws gdr).
  { constructor; intros; cbn; unfold unit_draw; try lra. destruct u; apply UD; lra. }
  destruct (generated 1 2 scenario a isd h el zmin zmax vmin vmax gdr R H E D)
    as (t & cx' & cy & G & CX & CY & CE & XE & B1 & B2 & B3 & U1 & U2 & U).
  assert (cx' = cx) by exact XE. subst cx'.
  assert (UN : forall d, uniform (- isd / 2) (isd / 2) (d / isd + 1 / 2) = d) by (intros d; unfold uniform; field; lra).
  destruct (U 0%nat 0%nat) as (x0 & y0 & X0 & Y0 & L0 & _ & _ & IN0). destruct (U 0%nat 1%nat) as (x1 & y1 & X1 & Y1 & L1 & _ & _ & IN1).
  cbn [gdr pair_draws gd_x gd_y gd_z] in X0, X1, Y0, Y1, L0, L1. rewrite UN in X0, X1.
  exists gdr, t. eexists. eexists. split; [exact D|]. split; [reflexivity|]. split; [exact G|]. split; [exact L0|]. split; [exact L1|].
  split.
  { unfold dist_2d, sq. cbn [vx vy]. rewrite X0, X1, Y0, Y1.
    replace (_ + _) with (7 * 7) by ring. apply sqrt_square. lra. }
  intros ut uo args l dr z (S1 & S2 & S3 & S4 & A1 & A2 & A3 & A4 & A5 & A6) LOS OK.
  destruct (in_sizes _ _ _ _ _ _ G) as [N1 N2].
  cbn [stored_in tp_uts u_loc u_orient u_vel u_in tp_bs_loc tp_bs_orient t_batch t_num t_at] in *.
  pose proof (constructed_accepted _ HC) as HA.
  assert (CA : channel_args args = {| a_ut_loc := Some ut; a_bs_loc := Some (tp_bs_loc t); a_ut_ori := Some uo;
     a_bs_ori := Some (tp_bs_orient t); a_ut_vel := Some (u_vel (tp_uts t)); a_in := Some (u_in (tp_uts t));
     a_los := a_los args; a_weather := no_weather; a_doppler := None |}).
  { unfold channel_args. rewrite A1, A2, A3, A4, A5, A6. reflexivity. }
  destruct (full_call sc (c_st c) ut (tp_bs_loc t) uo (tp_bs_orient t) (u_vel (tp_uts t)) (u_in (tp_uts t))
              (a_los args) no_weather None dr HA) as (st & ST & F1 & F2 & _ & _ & _ & F6); try congruence; try lia.
  rewrite <- CA in ST.
  destruct (C68_l sc al c args dr z st HC ST) as (ut' & ind & los & G1 & G2 & G3 & W).
  rewrite F1 in G1. injection G1 as <-. rewrite F6 in G2. injection G2 as <-.
  assert (NR : ~ rejected (Ok true : res bool)) by (intros [m Q]; discriminate Q).
  assert (RL : s_req_los st = Some l).
  { rewrite (acc_s_req_los sc HA _ _ _ _ _ ST NR), CA. cbn [a_los]. rewrite LOS. reflexivity. }
  destruct (los_semantics sc _ _ _ _ HC ST) as (los' & ind' & p & G3' & G2' & _ & LS).
  rewrite G3 in G3'. injection G3' as <-. rewrite F6 in G2'. injection G2' as <-. rewrite RL in LS.
  assert (LQ : los 0%nat 0%nat 0%nat = los 0%nat 0%nat 1%nat).
  { pose proof (LS 0%nat 0%nat 0%nat) as Q0. pose proof (LS 0%nat 0%nat 1%nat) as Q1. rewrite IN0 in Q0. rewrite IN1 in Q1.
    destruct (los 0%nat 0%nat 0%nat), (los 0%nat 0%nat 1%nat); intuition congruence. }
  destruct (proj1 W OK 0%nat 0%nat 1%nat) as [K|K]; try lia.
  - rewrite IN0, IN1, LQ. reflexivity.
  - apply K. pose proof (S3 0%nat 0%nat) as T0. pose proof (S3 0%nat 1%nat) as T1. rewrite L0 in T0. rewrite L1 in T1.
    cbn [omap] in T0, T1. injection T0 as <-. injection T1 as <-. cbn [position_fp vx]. rewrite X0, X1. exact SAME.
  - apply K. pose proof (S3 0%nat 0%nat) as T0. pose proof (S3 0%nat 1%nat) as T1. rewrite L0 in T0. rewrite L1 in T1.
    cbn [omap] in T0, T1. injection T0 as <-. injection T1 as <-. cbn [position_fp vy]. rewrite Y0, Y1. reflexivity.
Qed.

(* ---- examples ---- *)
(* dense urban, geostationary satellite at 20 degrees *)
Definition geo_args : gen_args :=
  {| ga_isd := None; ga_height := Some 35786000; ga_elev := Some 20; ga_min_h := None; ga_max_h := None;
     ga_indoor := None; ga_min_v := None; ga_max_v := None |}.
Lemma geo_resolved : resolved "dur" geo_args 200 35786000 20 1.5 1.5 0 0.
Proof.
  constructor; try (right; split; reflexivity); try (left; reflexivity).
  exists 200. split; [constructor|right; split; reflexivity].
Qed.

Lemma geo_example_l : exists base, 0 <= base < 1 /\
  67108868 <= base * (35786000 * cos (deg_2_rad 20) / sin (deg_2_rad 20)) <= 134217716 /\
  forall gdr t, proper_draws gdr -> gd_base gdr = base -> gen_single_sector_topology 1 2 "dur" geo_args gdr = Ok t ->
  exists ut uo args, handed_over (stored_in 24 t) ut uo args /\ a_los args = Some true.
Proof.
  destruct (low_elevation 20 ltac:(lra)) as [[S0 S1] C0].
  set (rho := 35786000 * cos (deg_2_rad 20) / sin (deg_2_rad 20)).
  assert (RB : 9e7 <= rho).
  { unfold rho. apply Rmult_le_reg_r with (sin (deg_2_rad 20)); [exact S0|].
    replace (35786000 * cos (deg_2_rad 20) / sin (deg_2_rad 20) * sin (deg_2_rad 20))
      with (35786000 * cos (deg_2_rad 20)) by (field; lra). lra. }
  assert (BR : 7e7 / rho * rho = 7e7) by (field; lra).
  exists (7e7 / rho). split; [split|split].
  - apply Rlt_le, Rdiv_lt_0_compat; lra.
  - apply Rmult_lt_reg_r with rho; [lra|]. rewrite BR. lra.
  - rewrite BR. lra.
  - intros gdr t D GB G.
    destruct (generated 1 2 "dur" geo_args 200 35786000 20 1.5 1.5 0 0 gdr geo_resolved ltac:(lra) ltac:(lra) D)
      as (t' & cx & cy & G' & _ & _ & _ & XE & _ & _ & _ & U1 & U2 & U).
    rewrite G in G'. injection G' as <-. rewrite GB in XE. fold rho in XE. rewrite BR in XE.
    set (ut := T 1 2 (fun b u => match t_at (u_loc (tp_uts (stored_in 24 t))) b u with Some v => v | None => V3 0 0 0 end)).
    set (uo := T 1 2 (fun b u => match t_at (u_orient (tp_uts t)) b u with Some v => v | None => V3 0 0 0 end)).
    exists ut, uo, {| a_ut_loc := Some ut; a_bs_loc := Some (tp_bs_loc t); a_ut_ori := Some uo;
       a_bs_ori := Some (tp_bs_orient t); a_ut_vel := Some (u_vel (tp_uts t)); a_in := Some (u_in (tp_uts t));
       a_los := Some true; a_weather := no_weather; a_doppler := None |}.
    split; [|reflexivity]. unfold handed_over.
    cbn [stored_in tp_uts u_loc u_orient u_vel u_in tp_bs_loc tp_bs_orient t_batch t_num t_at
         a_ut_loc a_bs_loc a_ut_ori a_bs_ori a_ut_vel a_in].
    split; [symmetry; exact U1|]. split; [symmetry; exact U2|].
    split; [intros b u; destruct (U b u) as (x & y & _ & _ & L & _);
      cbn [ut t_at stored_in tp_uts u_loc]; rewrite L; reflexivity|].
    split; [|repeat split].
    intros b u. destruct (U b u) as (x & y & X & _ & _ & O & _).
    cbn [uo t_at]. rewrite O. unfold atan_div. destruct (Req_EM_T x 0) as [Z|Z]; [|reflexivity]. exfalso.
    pose proof (pr_x gdr D b u) as V. unfold unit_draw in V. unfold uniform in X. rewrite X, XE in Z. lra.
Qed.
