(* Lemmas about the topology generators. *)
From Coq Require Import Reals String List Bool Arith ZArith Lra Lia Nsatz.
From Verif Require Import M_Base L_Base M_Geometry L_Trig M_TopoGen M_Coeff S_Coeff S_TopoGen L_Rotation.
Import ListNotations.
Open Scope string_scope.
Open Scope list_scope.
Open Scope R_scope.

Lemma uniform_range lo hi u : lo <= hi -> unit_draw u -> lo <= uniform lo hi u <= hi.
Proof. intros L [U0 U1]. unfold uniform. nra. Qed.

Lemma uniform_below lo hi u : lo < hi -> unit_draw u -> uniform lo hi u < hi.
Proof. intros L [U0 U1]. unfold uniform. nra. Qed.

Lemma sin_el el : 0 < el <= 90 -> 0 < sin (deg_2_rad el).
Proof.
  intros E. pose proof PI_RGT_0. apply sin_gt_0; unfold deg_2_rad; nra.
Qed.

(* --- parameter resolution --- *)
Lemma defaults_known s : (exists d, default_isd s d) <-> default_scenario_par s <> None.
Proof.
  unfold default_scenario_par. split.
  - intros [d H]; inversion H; subst; cbn; discriminate.
  - destruct (string_dec s "dur") as [->|]; [intros _; eexists; constructor|].
    destruct (string_dec s "urb") as [->|]; [intros _; eexists; constructor|].
    destruct (string_dec s "sur") as [->|]; [intros _; eexists; constructor|congruence].
Qed.

Lemma resolves_or o d v : resolves o d v <-> v = or_default o d.
Proof.
  unfold resolves, or_default. destruct o; split.
  - intros [E|[E _]]; congruence.
  - intros ->; left; reflexivity.
  - intros [E|[_ E]]; congruence.
  - intros ->; right; auto.
Qed.

Lemma C47_l : forall scenario a,
  ((forall d, ~ default_isd scenario d) ->
     exists m, set_3gpp_scenario_parameters scenario a = Err (AssertionError m)) /\
  (forall isd h el zmin zmax vmin vmax, resolved scenario a isd h el zmin zmax vmin vmax ->
     forall pin, resolves (ga_indoor a) 0 pin ->
     set_3gpp_scenario_parameters scenario a =
       Ok {| gp_isd := isd; gp_height := h; gp_elev := el; gp_min_h := zmin; gp_max_h := zmax;
             gp_indoor := pin; gp_min_v := vmin; gp_max_v := vmax |}) /\
  (forall p, set_3gpp_scenario_parameters scenario a = Ok p ->
     resolved scenario a (gp_isd p) (gp_height p) (gp_elev p) (gp_min_h p) (gp_max_h p) (gp_min_v p) (gp_max_v p) /\
     resolves (ga_indoor a) 0 (gp_indoor p)).
Proof.
  intros s a. unfold set_3gpp_scenario_parameters. repeat split.
  - intros N. destruct (default_scenario_par s) eqn:E; [|eexists; reflexivity].
    assert (D : default_scenario_par s <> None) by congruence.
    apply defaults_known in D as [d D]. exfalso; exact (N d D).
  - intros isd h el zmin zmax vmin vmax [[d [D RI]] H1 H2 H3 H4 H5 H6] pin H7.
    apply resolves_or in RI, H1, H2, H3, H4, H5, H6, H7. subst.
    inversion D; subst; reflexivity.
  - unfold default_scenario_par in H. destruct (string_dec s "dur") as [->|].
    { injection H as <-. eexists; split; [constructor|]. apply resolves_or. reflexivity. }
    destruct (string_dec s "urb") as [->|].
    { injection H as <-. eexists; split; [constructor|]. apply resolves_or. reflexivity. }
    destruct (string_dec s "sur") as [->|]; [|discriminate].
    injection H as <-. eexists; split; [constructor|]. apply resolves_or. reflexivity.
  - destruct (default_scenario_par s) as [d|] eqn:E; [|discriminate]. injection H as <-. cbn.
    apply resolves_or. f_equal. revert E. unfold default_scenario_par.
    repeat destruct (string_dec s _); intros E; try discriminate; injection E as <-; reflexivity.
  - destruct (default_scenario_par s) as [d|] eqn:E; [|discriminate]. injection H as <-. cbn.
    apply resolves_or. f_equal. revert E. unfold default_scenario_par.
    repeat destruct (string_dec s _); intros E; try discriminate; injection E as <-; reflexivity.
  - destruct (default_scenario_par s) as [d|] eqn:E; [|discriminate]. injection H as <-. cbn.
    apply resolves_or. f_equal. revert E. unfold default_scenario_par.
    repeat destruct (string_dec s _); intros E; try discriminate; injection E as <-; reflexivity.
  - destruct (default_scenario_par s) as [d|] eqn:E; [|discriminate]. injection H as <-. cbn.
    apply resolves_or. f_equal. revert E. unfold default_scenario_par.
    repeat destruct (string_dec s _); intros E; try discriminate; injection E as <-; reflexivity.
  - destruct (default_scenario_par s) as [d|] eqn:E; [|discriminate]. injection H as <-. cbn.
    apply resolves_or. f_equal. revert E. unfold default_scenario_par.
    repeat destruct (string_dec s _); intros E; try discriminate; injection E as <-; reflexivity.
  - destruct (default_scenario_par s) as [d|] eqn:E; [|discriminate]. injection H as <-. cbn.
    apply resolves_or. f_equal. revert E. unfold default_scenario_par.
    repeat destruct (string_dec s _); intros E; try discriminate; injection E as <-; reflexivity.
  - destruct (default_scenario_par s) as [d|] eqn:E; [|discriminate]. injection H as <-. cbn.
    apply resolves_or. f_equal. revert E. unfold default_scenario_par.
    repeat destruct (string_dec s _); intros E; try discriminate; injection E as <-; reflexivity.
Qed.

(* --- the drop --- *)
Lemma osqrt_nonneg x : 0 <= x -> osqrt x = Some (sqrt x).
Proof. intros H. unfold osqrt. destruct (Rlt_dec x 0); [lra|reflexivity]. Qed.

Lemma beam_centre_ok h el dr : 0 < h -> 0 < el <= 90 -> unit_draw (gd_base dr) ->
  exists cx cy, beam_centre h el dr = (Some cx, Some cy) /\ 0 <= cx /\ 0 <= cy /\
    sqrt (cx * cx + cy * cy) * sin (deg_2_rad el) = h * cos (deg_2_rad el) /\
    cx = gd_base dr * (h * cos (deg_2_rad el) / sin (deg_2_rad el)).
Proof.
  intros H E [U0 U1]. pose proof (sin_el el E) as S. pose proof (trig_one (deg_2_rad el)) as T.
  assert (C : 0 <= cos (deg_2_rad el)).
  { pose proof PI_RGT_0. apply cos_ge_0; unfold deg_2_rad; nra. }
  set (s := sin (deg_2_rad el)) in *. set (c := cos (deg_2_rad el)) in *.
  set (D := h * c / s).
  assert (D0 : 0 <= D) by (unfold D; apply Rmult_le_pos; [nra|left; apply Rinv_0_lt_compat, S]).
  assert (DD : sq (slant_distance h el) - sq h = D * D).
  { unfold slant_distance, sq, D. fold s. field_simplify; try lra. f_equal. nra. }
  unfold beam_centre. rewrite DD. rewrite osqrt_nonneg by nra. rewrite sqrt_square by exact D0.
  cbn [omap]. unfold uniform. rewrite Rminus_0_r, Rplus_0_l.
  set (x := gd_base dr * D).
  assert (X : 0 <= x <= D) by (unfold x; nra).
  assert (Q : 0 <= D * D - sq x) by (unfold sq; nra).
  rewrite osqrt_nonneg by exact Q.
  exists x, (sqrt (D * D - sq x)). split; [reflexivity|]. split; [lra|]. split; [apply sqrt_pos|].
  split; [|reflexivity].
  rewrite sqrt_sqrt by exact Q. unfold sq.
  replace (x * x + (D * D - x * x)) with (D * D) by ring.
  rewrite sqrt_square by exact D0. unfold D. field. lra.
Qed.

Lemma relocate_zero p : relocate 0 (0, 0) p = p.
Proof.
  unfold relocate, sector_angle. replace (0 * 2 * PI / 3) with 0 by field.
  rewrite cos_0, sin_0. destruct p as [x y]; cbn. f_equal; ring.
Qed.

Lemma relocate_zero_map (o : option (R * R)) : omap (relocate 0 (0, 0)) o = o.
Proof. destruct o; cbn [omap]; [rewrite relocate_zero|]; reflexivity. Qed.

Lemma speed_norm v a : 0 <= v -> sqrt ((v * cos a) * (v * cos a) + (v * sin a) * (v * sin a)) = v.
Proof.
  intros V. replace ((v * cos a) * (v * cos a) + (v * sin a) * (v * sin a))
    with (v * v * (cos a * cos a + sin a * sin a)) by ring.
  rewrite trig_one, Rmult_1_r. apply sqrt_square, V.
Qed.

(* all that a generated topology contains *)
Lemma generated : forall batch num_ut scenario a isd h el zmin zmax vmin vmax dr,
  resolved scenario a isd h el zmin zmax vmin vmax ->
  0 < h -> 0 < el <= 90 -> proper_draws dr ->
  exists t cx cy,
    gen_single_sector_topology batch num_ut scenario a dr = Ok t /\
    0 <= cx /\ 0 <= cy /\
    sqrt (cx * cx + cy * cy) * sin (deg_2_rad el) = h * cos (deg_2_rad el) /\
    cx = gd_base dr * (h * cos (deg_2_rad el) / sin (deg_2_rad el)) /\
    t_batch (tp_bs_loc t) = batch /\ t_num (tp_bs_loc t) = 1%nat /\
    (forall b s, t_at (tp_bs_loc t) b s = V3 0 0 h) /\
    t_batch (u_loc (tp_uts t)) = batch /\ t_num (u_loc (tp_uts t)) = num_ut /\
    (forall b u, exists x y,
       x = cx + uniform (- isd / 2) (isd / 2) (gd_x dr b u) /\
       y = cy + uniform (- isd / 2) (isd / 2) (gd_y dr b u) /\
       t_at (u_loc (tp_uts t)) b u = Some (V3 x y (uniform zmin zmax (gd_z dr b u))) /\
       t_at (u_orient (tp_uts t)) b u =
         omap (fun al => V3 al (deg_2_rad (el + 180)) (deg_2_rad (el + 90))) (atan_div y x) /\
       t_at (u_vel (tp_uts t)) b u =
         V3 (uniform vmin vmax (gd_speed dr b u) * cos (uniform (- PI) PI (gd_angle dr b u)))
            (uniform vmin vmax (gd_speed dr b u) * sin (uniform (- PI) PI (gd_angle dr b u))) 0 /\
       t_at (u_in (tp_uts t)) b u = false).
Proof.
  intros batch num_ut s a isd h el zmin zmax vmin vmax dr R H E D.
  destruct (beam_centre_ok h el dr H E (pr_base dr D)) as (cx & cy & B & X & Y & G & CX).
  pose proof (proj1 (proj2 (C47_l s a)) _ _ _ _ _ _ _ R (or_default (ga_indoor a) 0)) as P.
  specialize (P (proj2 (resolves_or _ _ _) eq_refl)).
  unfold gen_single_sector_topology. rewrite P. unfold generate_uts_topology.
  change (negb (("sector" =? "sector") || ("sector" =? "cell"))) with false.
  change ("sector" =? "sector") with true. cbv iota zeta.
  eexists. exists cx, cy. split; [reflexivity|].
  cbn [tp_bs_loc tp_uts u_loc u_orient u_vel u_in t_batch t_num t_at gp_isd gp_height gp_elev gp_min_h gp_max_h gp_min_v gp_max_v].
  repeat split; try assumption.
  intros b u. unfold drop_uts_in_sector. rewrite B. cbn [opair omap]. rewrite relocate_zero. cbn [fst snd].
  do 2 eexists. split; [reflexivity|]. split; [reflexivity|]. repeat split; try reflexivity.
  unfold Rltb. destruct (Rlt_dec (gd_in dr b u) 0); [|reflexivity].
  pose proof (pr_in dr D b u) as [? _]. lra.
Qed.

Lemma C44_l : forall batch num_ut scenario a isd h el zmin zmax vmin vmax dr,
  resolved scenario a isd h el zmin zmax vmin vmax ->
  0 <= isd -> 0 < h -> 0 < el <= 90 -> zmin <= zmax -> 0 <= vmin <= vmax -> proper_draws dr ->
  exists t cx cy,
    gen_single_sector_topology batch num_ut scenario a dr = Ok t /\
    t_batch (tp_bs_loc t) = batch /\ t_num (tp_bs_loc t) = 1%nat /\
    t_batch (u_loc (tp_uts t)) = batch /\ t_num (u_loc (tp_uts t)) = num_ut /\
    (* the satellite is above the origin and seen from the beam centre under the elevation angle *)
    (forall b s, t_at (tp_bs_loc t) b s = V3 0 0 h) /\
    h * cos (deg_2_rad el) = sqrt (cx * cx + cy * cy) * sin (deg_2_rad el) /\
    (forall b u, exists x y z, t_at (u_loc (tp_uts t)) b u = Some (V3 x y z) /\
       Rabs (x - cx) <= isd / 2 /\ Rabs (y - cy) <= isd / 2 /\ zmin <= z <= zmax /\
       t_at (u_in (tp_uts t)) b u = false /\
       vz (t_at (u_vel (tp_uts t)) b u) = 0 /\ vmin <= vnorm (t_at (u_vel (tp_uts t)) b u) <= vmax).
Proof.
  intros batch num_ut s a isd h el zmin zmax vmin vmax dr R I H E Z V D.
  destruct (generated batch num_ut s a isd h el zmin zmax vmin vmax dr R H E D)
    as (t & cx & cy & G & X & Y & A & _ & B1 & B2 & B3 & U1 & U2 & U).
  exists t, cx, cy. repeat split; try assumption; try (symmetry; exact A).
  intros b u. destruct (U b u) as (x & y & -> & -> & L & _ & W & IN).
  assert (J : - isd / 2 <= isd / 2) by lra.
  pose proof (uniform_range _ _ _ J (pr_x dr D b u)) as Rx.
  pose proof (uniform_range _ _ _ J (pr_y dr D b u)) as Ry.
  pose proof (uniform_range _ _ _ Z (pr_z dr D b u)) as Rz.
  pose proof (uniform_range _ _ _ (proj2 V) (pr_speed dr D b u)) as Rv.
  do 3 eexists. split; [exact L|].
  split; [apply Rabs_le; lra|]. split; [apply Rabs_le; lra|]. split; [lra|].
  split; [exact IN|]. rewrite W. split; [reflexivity|].
  unfold vnorm, vdot. cbn [vx vy vz]. rewrite Rmult_0_r, Rplus_0_r.
  rewrite speed_norm by lra. lra.
Qed.

(* --- orientation of the terminals --- *)
Lemma boresight_at al el : boresight (V3 al (deg_2_rad (el + 180)) (deg_2_rad (el + 90))) =
  V3 (- cos (deg_2_rad el) * cos al) (- cos (deg_2_rad el) * sin al) (sin (deg_2_rad el)).
Proof.
  unfold boresight. rewrite rot_pos_comp. cbn [vx vy vz].
  replace (deg_2_rad (el + 180)) with (deg_2_rad el + PI) by (unfold deg_2_rad; field).
  set (g := deg_2_rad (el + 90)). set (e := deg_2_rad el).
  apply vec3_eq; unfold rot_z, rot_y, rot_x; cbn [vx vy vz]; rewrite ?neg_cos, ?neg_sin; ring.
Qed.

Lemma atan_dir x y : x <> 0 -> let r := sqrt (x * x + y * y) in
  r * cos (atan (y / x)) = Rabs x /\ r * sin (atan (y / x)) = y * (Rabs x / x).
Proof.
  intros N r.
  assert (P : forall a b, 0 < a -> sqrt (a * a + b * b) * cos (atan (b / a)) = a /\
                                   sqrt (a * a + b * b) * sin (atan (b / a)) = b).
  { intros a b A. pose proof (atan2_cos b a) as C. pose proof (atan2_sin b a) as S.
    unfold atan2 in C, S. destruct (Rlt_dec 0 a); [|lra]. split; assumption. }
  destruct (Rlt_dec 0 x) as [X|X].
  - destruct (P x y X) as [C S]. rewrite Rabs_right by lra. unfold r. rewrite C, S. split; [reflexivity|field; lra].
  - assert (X2 : 0 < - x) by lra. destruct (P (- x) (- y) X2) as [C S].
    replace (- x * - x + - y * - y) with (x * x + y * y) in C, S by ring.
    replace (- y / - x) with (y / x) in C, S by (field; lra).
    rewrite Rabs_left by lra. unfold r. rewrite C, S. split; [reflexivity|field; lra].
Qed.

(* the bearing of a UT points away from the origin if x >= 0 and towards it if x < 0; at the origin it is NaN *)
Lemma atan_div_dir x y al : atan_div y x = Some al -> let r := sqrt (x * x + y * y) in
  (0 <= x -> r * cos al = x /\ r * sin al = y) /\ (x < 0 -> r * cos al = - x /\ r * sin al = - y).
Proof.
  intros A r. unfold atan_div in A. destruct (Req_EM_T x 0) as [->|N].
  - unfold r. rewrite Rmult_0_l, Rplus_0_l. split; [intros _|intros; lra].
    destruct (Rlt_dec 0 y); [|destruct (Rlt_dec y 0); [|discriminate]]; injection A as <-;
      rewrite ?cos_neg, ?sin_neg, cos_PI2, sin_PI2.
    + rewrite sqrt_square by lra. split; ring.
    + replace (y * y) with ((- y) * (- y)) by ring. rewrite sqrt_square by lra. split; ring.
  - injection A as <-. destruct (atan_dir x y N) as [C S]. cbv zeta in C, S. fold r in C, S. rewrite C, S.
    split; intros X.
    + rewrite Rabs_right by lra. split; [reflexivity|field; lra].
    + rewrite Rabs_left by lra. split; [reflexivity|field; lra].
Qed.
Lemma atan_div_none x y : atan_div y x = None <-> x = 0 /\ y = 0.
Proof.
  unfold atan_div. destruct (Req_EM_T x 0); [|split; [discriminate|intros [? _]; contradiction]].
  destruct (Rlt_dec 0 y); [split; [discriminate|intros; lra]|].
  destruct (Rlt_dec y 0); [split; [discriminate|intros; lra]|].
  split; [intros _; lra|reflexivity].
Qed.

Lemma C45_l : forall batch num_ut scenario a isd h el zmin zmax vmin vmax dr t b u ut,
  resolved scenario a isd h el zmin zmax vmin vmax ->
  0 < h -> 0 < el <= 90 -> proper_draws dr ->
  gen_single_sector_topology batch num_ut scenario a dr = Ok t ->
  t_at (u_loc (tp_uts t)) b u = Some ut ->
  let bs := t_at (tp_bs_loc t) b 0%nat in
  (* exactly below the satellite the orientation is NaN *)
  (t_at (u_orient (tp_uts t)) b u = None <-> vx ut = vx bs /\ vy ut = vy bs) /\
  (forall o, t_at (u_orient (tp_uts t)) b u = Some o ->
    vz (boresight o) = sin (deg_2_rad el) /\
    (0 <= vx ut -> dist_2d ut bs * vx (boresight o) = cos (deg_2_rad el) * (vx bs - vx ut) /\
                   dist_2d ut bs * vy (boresight o) = cos (deg_2_rad el) * (vy bs - vy ut)) /\
    (vx ut < 0 -> dist_2d ut bs * vx (boresight o) = - (cos (deg_2_rad el) * (vx bs - vx ut)) /\
                  dist_2d ut bs * vy (boresight o) = - (cos (deg_2_rad el) * (vy bs - vy ut)))).
Proof.
  intros batch num_ut s a isd h el zmin zmax vmin vmax dr t b u ut R H E D Gt L bs.
  destruct (generated batch num_ut s a isd h el zmin zmax vmin vmax dr R H E D)
    as (t' & cx & cy & G & _ & _ & _ & _ & _ & _ & B3 & _ & _ & U).
  rewrite Gt in G. injection G as <-. destruct (U b u) as (x & y & _ & _ & L2 & O & _ & _).
  rewrite L in L2. injection L2 as ->. cbn [vx vy] in *. unfold bs. rewrite B3. cbn [vx vy].
  rewrite O. pose proof (atan_div_none x y) as NN. pose proof (atan_div_dir x y) as DD.
  destruct (atan_div y x) as [al|]; cbn [omap].
  2:{ split; [split; [intros _; apply NN; reflexivity|reflexivity]|discriminate]. }
  split; [split; [discriminate|intros X; apply NN in X; discriminate]|].
  intros o Oo. injection Oo as <-. rewrite boresight_at. cbn [vx vy vz]. split; [reflexivity|].
  unfold dist_2d, sq. cbn [vx vy]. rewrite !Rminus_0_r.
  destruct (DD al eq_refl) as [D1 D2].
  set (r := sqrt (x * x + y * y)) in *. set (ce := cos (deg_2_rad el)).
  replace (r * (- ce * cos al)) with (- ce * (r * cos al)) by ring.
  replace (r * (- ce * sin al)) with (- ce * (r * sin al)) by ring.
  split; intros X; [destruct (D1 X) as [-> ->]|destruct (D2 X) as [-> ->]]; split; ring.
Qed.

(* --- drops over a sector and over a whole cell --- *)
Lemma C85_l : forall batch num_ut cell p dr,
  0 <= gp_isd p -> 0 < gp_height p -> 0 < gp_elev p <= 90 -> gp_min_h p <= gp_max_h p ->
  0 <= gp_min_v p <= gp_max_v p -> proper_draws dr ->
  exists us ws cx cy,
    generate_uts_topology batch num_ut "sector" cell p dr = Ok us /\
    generate_uts_topology batch num_ut "cell" cell p dr = Ok ws /\
    t_batch (u_loc us) = batch /\ t_num (u_loc us) = num_ut /\
    t_batch (u_loc ws) = batch /\ t_num (u_loc ws) = num_ut /\
    gp_height p * cos (gp_elev p * PI / 180) = sqrt (cx * cx + cy * cy) * sin (gp_elev p * PI / 180) /\
    (forall b u, exists x y xc yc z,
       (* the sector drop: around the beam centre, moved to the cell centre *)
       t_at (u_loc us) b u = Some (V3 x y z) /\
       Rabs (x - fst (cell b u) - cx) <= gp_isd p / 2 /\ Rabs (y - snd (cell b u) - cy) <= gp_isd p / 2 /\
       gp_min_h p <= z <= gp_max_h p /\
       (* the cell drop: the same point turned into the UT's own drawn sector about its own cell centre *)
       t_at (u_loc ws) b u = Some (V3 xc yc z) /\
       turned_about (cell b u) (120 * IZR (gd_sector dr b u)) (x, y) (xc, yc) /\
       (* everything but position and bearing is the same *)
       t_at (u_vel ws) b u = t_at (u_vel us) b u /\ t_at (u_in ws) b u = false /\ t_at (u_in us) b u = false /\
       vz (t_at (u_vel us) b u) = 0 /\ gp_min_v p <= vnorm (t_at (u_vel us) b u) <= gp_max_v p /\
       (* the axis is computed from the final position, towards the origin if x >= 0 and away from it if x < 0 *)
       (t_at (u_orient ws) b u = None <-> xc = 0 /\ yc = 0) /\
       (t_at (u_orient us) b u = None <-> x = 0 /\ y = 0) /\
       (forall o, t_at (u_orient ws) b u = Some o ->
          (0 <= xc -> looks 1 (gp_elev p) xc yc o) /\ (xc < 0 -> looks (-1) (gp_elev p) xc yc o)) /\
       (forall o, t_at (u_orient us) b u = Some o ->
          (0 <= x -> looks 1 (gp_elev p) x y o) /\ (x < 0 -> looks (-1) (gp_elev p) x y o))).
Proof.
  intros batch num_ut cell p dr I H E Z V D.
  destruct (beam_centre_ok _ _ dr H E (pr_base dr D)) as (cx & cy & B & _ & _ & G & _).
  assert (DG : gp_elev p * PI / 180 = deg_2_rad (gp_elev p)) by (unfold deg_2_rad; field).
  rewrite DG. unfold generate_uts_topology.
  change (negb (("sector" =? "sector") || ("sector" =? "cell"))) with false.
  change (negb (("cell" =? "sector") || ("cell" =? "cell"))) with false.
  change ("sector" =? "sector") with true. change ("cell" =? "sector") with false. cbv iota zeta.
  do 2 eexists. exists cx, cy. split; [reflexivity|]. split; [reflexivity|].
  cbn [u_loc u_orient u_vel u_in t_batch t_num t_at].
  do 4 (split; [reflexivity|]). split; [symmetry; exact G|].
  intros b u. unfold drop_uts_in_sector. rewrite B. cbn [opair omap].
  assert (J : - gp_isd p / 2 <= gp_isd p / 2) by lra.
  pose proof (uniform_range _ _ _ J (pr_x dr D b u)) as Rx.
  pose proof (uniform_range _ _ _ J (pr_y dr D b u)) as Ry.
  set (dx := uniform (- gp_isd p / 2) (gp_isd p / 2) (gd_x dr b u)) in *.
  set (dy := uniform (- gp_isd p / 2) (gp_isd p / 2) (gd_y dr b u)) in *.
  assert (IN : Rltb (gd_in dr b u) 0 = false).
  { unfold Rltb. destruct (Rlt_dec (gd_in dr b u) 0); [|reflexivity].
    pose proof (pr_in dr D b u) as [? _]. lra. }
  assert (Z0 : relocate 0 (cell b u) (cx + dx, cy + dy) = (cx + dx + fst (cell b u), cy + dy + snd (cell b u))).
  { unfold relocate, sector_angle. replace (0 * 2 * PI / 3) with 0 by field. rewrite cos_0, sin_0. cbn. f_equal; ring. }
  rewrite Z0. cbn [fst snd].
  assert (LK : forall x y al, atan_div y x = Some al ->
     let o := V3 al (deg_2_rad (gp_elev p + 180)) (deg_2_rad (gp_elev p + 90)) in
     (0 <= x -> looks 1 (gp_elev p) x y o) /\ (x < 0 -> looks (-1) (gp_elev p) x y o)).
  { intros x y al A o. destruct (atan_div_dir x y al A) as [D1 D2].
    unfold looks, o. rewrite DG, boresight_at. cbn [vx vy vz].
    set (ce := cos (deg_2_rad (gp_elev p))). set (r := sqrt (x * x + y * y)) in *.
    replace (r * (- ce * cos al)) with (- ce * (r * cos al)) by ring.
    replace (r * (- ce * sin al)) with (- ce * (r * sin al)) by ring.
    split; intros X; (split; [reflexivity|]);
      [destruct (D1 X) as [-> ->]|destruct (D2 X) as [-> ->]]; split; ring. }
  do 5 eexists. split; [reflexivity|].
  split; [apply Rabs_le; lra|]. split; [apply Rabs_le; lra|].
  split; [pose proof (uniform_range _ _ _ Z (pr_z dr D b u)); lra|].
  split; [reflexivity|]. split.
  { unfold turned_about, relocate, sector_angle. cbn [fst snd].
    replace (120 * IZR (gd_sector dr b u) * PI / 180) with (IZR (gd_sector dr b u) * 2 * PI / 3) by field.
    split; ring. }
  split; [reflexivity|]. split; [exact IN|]. split; [exact IN|]. split; [reflexivity|]. split.
  { pose proof (uniform_range _ _ _ (proj2 V) (pr_speed dr D b u)) as Rv.
    unfold vnorm, vdot. cbn [vx vy vz]. rewrite Rmult_0_r, Rplus_0_r. rewrite speed_norm by lra. lra. }
  set (q := relocate (gd_sector dr b u) (cell b u) (cx + dx, cy + dy)).
  assert (OM : forall (o : option R) (f : R -> vec3), omap f o = None <-> o = None).
  { intros o f. destruct o; cbn; split; intros; congruence. }
  split; [rewrite OM; apply atan_div_none|]. split; [rewrite OM; apply atan_div_none|].
  split; intros o Ho.
  - destruct (atan_div (snd q) (fst q)) as [al|] eqn:A; [|discriminate]. injection Ho as <-. exact (LK _ _ _ A).
  - destruct (atan_div (cy + dy + snd (cell b u)) (cx + dx + fst (cell b u))) as [al|] eqn:A; [|discriminate].
    injection Ho as <-. exact (LK _ _ _ A).
Qed.

Lemma C85_area_l : forall batch num_ut area cell p dr, area <> "sector" -> area <> "cell" ->
  exists m, generate_uts_topology batch num_ut area cell p dr = Err (AssertionError m).
Proof.
  intros batch num_ut area cell p dr A B. unfold generate_uts_topology.
  apply String.eqb_neq in A, B. rewrite A, B. eexists; reflexivity.
Qed.

(* all UTs are in front of the satellite when the beam is steered far enough along x *)
Lemma C45_front_l : forall batch num_ut scenario a isd h el zmin zmax vmin vmax dr t b u ut,
  resolved scenario a isd h el zmin zmax vmin vmax ->
  0 <= isd -> 0 < h -> 0 < el <= 90 -> proper_draws dr ->
  isd / 2 < gd_base dr * (h * cos (deg_2_rad el) / sin (deg_2_rad el)) ->
  gen_single_sector_topology batch num_ut scenario a dr = Ok t ->
  t_at (u_loc (tp_uts t)) b u = Some ut -> 0 < vx ut.
Proof.
  intros batch num_ut s a isd h el zmin zmax vmin vmax dr t b u ut R I H E D F Gt L.
  destruct (generated batch num_ut s a isd h el zmin zmax vmin vmax dr R H E D)
    as (t' & cx & cy & G & _ & _ & _ & CX & _ & _ & B3 & _ & _ & U).
  rewrite Gt in G. injection G as <-. destruct (U b u) as (x & y & X & _ & L2 & O & _ & _).
  rewrite L in L2. injection L2 as ->. cbn [vx].
  assert (J : - isd / 2 <= isd / 2) by lra.
  pose proof (uniform_range _ _ _ J (pr_x dr D b u)). lra.
Qed.

Definition no_args : gen_args :=
  {| ga_isd := None; ga_height := None; ga_elev := None; ga_min_h := None; ga_max_h := None;
     ga_indoor := None; ga_min_v := None; ga_max_v := None |}.
Definition const_draws (v : R) : gen_draws :=
  {| gd_base := v; gd_side := fun _ _ => v; gd_x := fun _ _ => v; gd_y := fun _ _ => v;
     gd_sector := fun _ _ => 0%Z; gd_z := fun _ _ => v; gd_in := fun _ _ => v;
     gd_angle := fun _ _ => v; gd_speed := fun _ _ => v |}.
Lemma const_proper v : unit_draw v -> proper_draws (const_draws v).
Proof. intros H; constructor; intros; exact H. Qed.
Lemma sur_resolved : resolved "sur" no_args 5000 600000 80 1.5 1.5 0 0.
Proof.
  constructor; try (right; split; reflexivity).
  exists 5000. split; [constructor|right; split; reflexivity].
Qed.

(* the suburban defaults: a UT west of the satellite looks away from it *)
Lemma C45_refuted_l : exists scenario a dr t ut o, proper_draws dr /\
  gen_single_sector_topology 1 1 scenario a dr = Ok t /\
  t_at (u_loc (tp_uts t)) 0%nat 0%nat = Some ut /\ t_at (u_orient (tp_uts t)) 0%nat 0%nat = Some o /\
  let bs := t_at (tp_bs_loc t) 0%nat 0%nat in
  (vx bs - vx ut) * vx (boresight o) + (vy bs - vy ut) * vy (boresight o) < 0.
Proof.
  assert (U : unit_draw 0) by (split; lra).
  pose proof (const_proper 0 U) as D.
  assert (H : 0 < 600000) by lra. assert (E : 0 < 80 <= 90) by lra.
  destruct (generated 1 1 "sur" no_args 5000 600000 80 1.5 1.5 0 0 _ sur_resolved H E D)
    as (t & cx & cy & G & _ & _ & A & CX & _ & _ & B3 & _ & _ & UU).
  destruct (UU 0%nat 0%nat) as (x & y & X & Y & L & O & _ & _).
  assert (CX0 : cx = 0) by (rewrite CX; unfold const_draws; cbn [gd_base]; ring).
  assert (X0 : x = -2500).
  { rewrite X, CX0. unfold const_draws, uniform. cbn [gd_x]. field. }
  assert (N : x <> 0) by lra.
  pose proof (C45_l 1 1 "sur" no_args 5000 600000 80 1.5 1.5 0 0 _ t 0%nat 0%nat _ sur_resolved H E D G L) as P.
  cbv zeta in P. rewrite B3 in P. cbn [vx vy] in P.
  destruct P as [P0 P]. destruct (t_at (u_orient (tp_uts t)) 0%nat 0%nat) as [o|] eqn:Oo;
    [|exfalso; apply N; exact (proj1 (proj1 P0 eq_refl))].
  destruct (P o eq_refl) as (_ & _ & P3). assert (X1 : x < 0) by lra. destruct (P3 X1) as [P1 P2].
  exists "sur", no_args, (const_draws 0), t. do 2 eexists. split; [exact D|].
  split; [exact G|]. split; [exact L|]. split; [exact Oo|]. cbv zeta. rewrite B3. cbn [vx vy].
  set (d := dist_2d _ _) in P1, P2.
  assert (DP : 0 < d).
  { unfold d, dist_2d, sq. cbn [vx vy]. apply sqrt_lt_R0. nra. }
  assert (C : 0 < cos (deg_2_rad 80)).
  { pose proof PI_RGT_0. apply cos_gt_0; unfold deg_2_rad; lra. }
  apply Rmult_lt_reg_l with d; [exact DP|]. rewrite Rmult_0_r.
  replace (d * ((0 - x) * vx (boresight o) + (0 - y) * vy (boresight o)))
    with ((0 - x) * (d * vx (boresight o)) + (0 - y) * (d * vy (boresight o))) by ring.
  rewrite P1, P2.
  assert (Q : 0 < x * x + y * y) by nra.
  replace ((0 - x) * - (cos (deg_2_rad 80) * (0 - x)) + (0 - y) * - (cos (deg_2_rad 80) * (0 - y)))
    with (- (cos (deg_2_rad 80) * (x * x + y * y))) by ring. nra.
Qed.

Lemma C46_l : forall batch num_ut num_int scenario d isd h zmin zmax pin vmin vmax,
  exists e, gen_single_sector_topology_interferers batch num_ut num_int scenario d isd h zmin zmax pin vmin vmax = Err e /\
    ((exists s, default_isd scenario s) -> e = NameError "dtype").
Proof.
  intros. unfold gen_single_sector_topology_interferers, set_3gpp_scenario_parameters.
  destruct (default_scenario_par scenario) eqn:E.
  - eexists; split; [reflexivity|]. intros _; reflexivity.
  - eexists; split; [reflexivity|]. intros K. apply defaults_known in K. congruence.
Qed.

(* --- relocation --- *)
Lemma C48_l : forall loc sector cell b u,
  (* distance to the cell centre *)
  dist2 (relocate_uts loc sector cell b u) (cell b u) = dist2 (loc b u) (0, 0) /\
  (* mutual distances within one sector of one cell *)
  (forall v, sector b v = sector b u -> cell b v = cell b u ->
     dist2 (relocate_uts loc sector cell b u) (relocate_uts loc sector cell b v) = dist2 (loc b u) (loc b v)) /\
  (* a UT at the origin goes to the centre *)
  (loc b u = (0, 0) -> relocate_uts loc sector cell b u = cell b u) /\
  (* each sector is the previous one turned by 120 degrees about the centre *)
  (forall k sector', sector' b u = (sector b u + k)%Z ->
     let p := relocate_uts loc sector cell b u in
     let q := relocate_uts loc sector' cell b u in
     let a := deg_2_rad (120 * IZR k) in
     q = (cos a * (fst p - fst (cell b u)) - sin a * (snd p - snd (cell b u)) + fst (cell b u),
          sin a * (fst p - fst (cell b u)) + cos a * (snd p - snd (cell b u)) + snd (cell b u))) /\
  (forall sector' k, sector' b u = (sector b u + 3 * k)%Z ->
     relocate_uts loc sector' cell b u = relocate_uts loc sector cell b u).
Proof.
  intros loc sector cell b u.
  unfold relocate_uts, relocate.
  destruct (loc b u) as [x y] eqn:L, (cell b u) as [cx cy] eqn:C. cbn [fst snd].
  pose proof (trig_one (sector_angle (sector b u))) as T.
  repeat split.
  - unfold dist2, Rsqr. cbn [fst snd].
    set (s := sin _) in *. set (c := cos _) in *. nsatz.
  - intros v -> ->. destruct (loc b v) as [x2 y2]. unfold dist2, Rsqr. cbn [fst snd].
    set (s := sin _) in *. set (c := cos _) in *. nsatz.
  - intros H; injection H as -> ->. f_equal; ring.
  - intros k sector' Hk. cbv zeta. rewrite Hk.
    replace (sector_angle (sector b u + k)) with (deg_2_rad (120 * IZR k) + sector_angle (sector b u)).
    2:{ unfold sector_angle, deg_2_rad. rewrite plus_IZR. field. }
    rewrite cos_plus, sin_plus. cbn [fst snd]. f_equal; ring.
  - intros sector' k Hk. rewrite Hk.
    replace (sector_angle (sector b u + 3 * k)) with (sector_angle (sector b u) + 2 * IZR k * PI).
    2:{ unfold sector_angle. rewrite plus_IZR, mult_IZR. field. }
    rewrite cos_period_Z, sin_period_Z. reflexivity.
Qed.

(* a drop straight below the satellite: UT 0 hits the origin, UT 1 lies 50 m to the east *)
Definition below_par : gen_params :=
  {| gp_isd := 200; gp_height := 600000; gp_elev := 90; gp_min_h := 1.5; gp_max_h := 2; gp_indoor := 0;
     gp_min_v := 0; gp_max_v := 10 |}.
Definition below_draws : gen_draws :=
  {| gd_base := 0; gd_side := fun _ _ => 0; gd_x := fun _ u => if Nat.eqb u 0 then / 2 else 3 / 4; gd_y := fun _ _ => / 2;
     gd_sector := fun _ u => Z.of_nat u; gd_z := fun _ _ => / 2; gd_in := fun _ _ => / 2;
     gd_angle := fun _ _ => / 2; gd_speed := fun _ _ => / 2 |}.
Lemma below_proper : proper_draws below_draws.
Proof.
  constructor; intros; unfold unit_draw; cbn; try lra. destruct (Nat.eqb u 0); lra.
Qed.
Lemma cell_example_l :
  0 <= gp_isd below_par /\ 0 < gp_height below_par /\ 0 < gp_elev below_par <= 90 /\
  gp_min_h below_par <= gp_max_h below_par /\ 0 <= gp_min_v below_par <= gp_max_v below_par /\ proper_draws below_draws /\
  exists ws xc yc z, generate_uts_topology 1 2 "cell" (fun _ _ => (0, 0)) below_par below_draws = Ok ws /\
    (* the UT at the origin has no orientation; the other one is turned into sector 1 and looks away *)
    t_at (u_orient ws) 0%nat 0%nat = None /\
    t_at (u_loc ws) 0%nat 1%nat = Some (V3 xc yc z) /\ xc = -25 /\ yc * yc = 1875 /\
    exists o, t_at (u_orient ws) 0%nat 1%nat = Some o /\ looks (-1) 90 xc yc o.
Proof.
  split; [cbn; lra|]. split; [cbn; lra|]. split; [cbn; lra|]. split; [cbn; lra|]. split; [cbn; lra|].
  split; [exact below_proper|].
  destruct (C85_l 1 2 (fun _ _ => (0, 0)) below_par below_draws) as (us & ws & cx & cy & G1 & G2 & _ & _ & _ & _ & B & U);
    try (cbn; lra); [exact below_proper|].
  (* exact positions by computation *)
  assert (P : forall u, t_at (u_loc us) 0%nat u =
     Some (V3 (if Nat.eqb u 0 then 0 else 50) 0 (7 / 4))).
  { intros u. unfold generate_uts_topology in G1.
    change (negb (("sector" =? "sector") || ("sector" =? "cell"))) with false in G1.
    change ("sector" =? "sector") with true in G1. cbv iota zeta in G1. injection G1 as <-. cbn [u_loc t_at].
    rewrite relocate_zero_map.
    unfold drop_uts_in_sector, beam_centre, slant_distance. cbn [below_par gp_height gp_elev gp_isd gp_min_h gp_max_h].
    replace (deg_2_rad 90) with (PI / 2) by (unfold deg_2_rad; field). rewrite sin_PI2.
    replace (sq (600000 / 1) - sq 600000) with 0 by (unfold sq; field).
    rewrite osqrt_nonneg by lra. rewrite sqrt_0. cbn [omap below_draws gd_base].
    replace (0 - sq (uniform 0 0 0)) with 0 by (unfold sq, uniform; ring).
    rewrite osqrt_nonneg by lra. rewrite sqrt_0. cbn [opair omap gd_x gd_y gd_z fst snd].
    f_equal. unfold uniform. destruct (Nat.eqb u 0); apply vec3_eq; cbn [vx vy vz]; lra. }
  destruct (U 0%nat 0%nat) as (x & y & xc & yc & z & L & _ & _ & _ & Lc & Tu & _ & _ & _ & _ & _ & On & _).
  rewrite P in L. cbn [Nat.eqb] in L. injection L as <- <- <-.
  unfold turned_about in Tu. cbn [fst snd] in Tu. destruct Tu as [Tx Ty].
  destruct (U 0%nat 1%nat) as (x1 & y1 & xc1 & yc1 & z1 & L1 & _ & _ & _ & Lc1 & Tu1 & _ & _ & _ & _ & _ & On1 & _ & Lk & _).
  rewrite P in L1. cbn [Nat.eqb] in L1. injection L1 as <- <- <-.
  unfold turned_about in Tu1. cbn [fst snd below_draws gd_sector Z.of_nat] in Tu1.
  match type of Tu1 with context [cos ?a] => replace a with (2 * (PI / 3)) in Tu1 by (cbn; field) end.
  rewrite cos_2PI3, sin_2PI3 in Tu1. destruct Tu1 as [Tx1 Ty1].
  pose proof (sqrt_def 3) as S3.
  assert (X1 : xc1 = -25) by lra.
  exists ws, xc1, yc1, (7 / 4). split; [exact G2|]. split; [apply On; split; lra|].
  split; [exact Lc1|]. split; [exact X1|]. split.
  { replace yc1 with (25 * sqrt 3) by lra. replace (25 * sqrt 3 * (25 * sqrt 3)) with (625 * (sqrt 3 * sqrt 3)) by ring.
    rewrite S3 by lra. lra. }
  destruct (t_at (u_orient ws) 0%nat 1%nat) as [o|].
  - exists o. split; [reflexivity|]. apply (Lk o eq_refl). lra.
  - exfalso. pose proof (proj1 On1 eq_refl). lra.
Qed.
