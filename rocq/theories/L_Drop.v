(* Lemmas for C111: where the UTs of a generated topology are dropped. *)
From Coq Require Import Reals String List Bool Arith ZArith Lra Lia.
From Verif Require Import M_Base L_Base M_Geometry L_Trig M_TopoGen S_TopoGen L_TopoGen S_Drop.
Import ListNotations.
Open Scope string_scope.
Open Scope list_scope.
Open Scope R_scope.

Lemma deg_el el : deg_2_rad el = el * PI / 180.
Proof. unfold deg_2_rad. field. Qed.

Lemma centre_distance_pos h el : 0 < h -> 0 < el < 90 -> 0 < centre_distance h el.
Proof.
  intros H E. unfold centre_distance. rewrite <- deg_el. pose proof (sin_el el ltac:(lra)) as S.
  assert (C : 0 < cos (deg_2_rad el)) by (pose proof PI_RGT_0; apply cos_gt_0; unfold deg_2_rad; nra).
  apply Rmult_lt_0_compat; [nra | apply Rinv_0_lt_compat, S].
Qed.

Lemma box_iff isd c lo hi x0 r d : lo = - isd / 2 -> hi = isd / 2 -> 0 < isd ->
  (x0 <= c + uniform lo hi d < x0 + r * isd <-> in_part ((x0 - c) / isd + 1 / 2) r d).
Proof.
  intros -> -> I. unfold in_part, uniform.
  replace (c + (- isd / 2 + d * (isd / 2 - - isd / 2))) with (x0 + (d - ((x0 - c) / isd + 1 / 2)) * isd) by (field; lra).
  set (k := (x0 - c) / isd + 1 / 2). clearbody k. split; intros [A B]; split; nra.
Qed.

Lemma C111_uniform_l : forall batch num_ut scenario a isd h el zmin zmax vmin vmax base,
  resolved scenario a isd h el zmin zmax vmin vmax -> 0 < isd -> 0 < h -> 0 < el <= 90 ->
  0 <= base < 1 -> exists cx cy, cx = base * centre_distance h el /\ 0 <= cy /\ cx * cx + cy * cy = centre_distance h el * centre_distance h el /\
  forall dr, proper_draws dr -> gd_base dr = base -> exists t, gen_single_sector_topology batch num_ut scenario a dr = Ok t /\
  forall b u, exists p, t_at (u_loc (tp_uts t)) b u = Some p /\
  forall x0 y0 r, in_square x0 y0 (r * isd) p <->
    in_part ((x0 - cx) / isd + 1 / 2) r (gd_x dr b u) /\ in_part ((y0 - cy) / isd + 1 / 2) r (gd_y dr b u).
Proof.
  intros batch num_ut sc a isd h el zmin zmax vmin vmax base RV I H E B.
  assert (S := sin_el el E). set (D := centre_distance h el).
  assert (ED : h * cos (deg_2_rad el) / sin (deg_2_rad el) = D) by (unfold D, centre_distance; rewrite deg_el; reflexivity).
  assert (D0 : 0 <= D).
  { unfold D, centre_distance. rewrite <- deg_el. apply Rmult_le_pos; [| left; apply Rinv_0_lt_compat, S].
    apply Rmult_le_pos; [lra|]. pose proof PI_RGT_0. apply cos_ge_0; unfold deg_2_rad; nra. }
  assert (Q : 0 <= D * D - base * D * (base * D)).
  { replace (D * D - base * D * (base * D)) with (D * D * (1 - base * base)) by ring. apply Rmult_le_pos; nra. }
  exists (base * D), (sqrt (D * D - base * D * (base * D))). split; [reflexivity|]. split; [apply sqrt_pos|].
  split; [rewrite sqrt_sqrt by exact Q; ring|].
  intros dr PD EB. destruct (generated batch num_ut sc a isd h el zmin zmax vmin vmax dr RV H E PD)
    as (t & cx & cy & G & X & Y & A & CX & _ & _ & _ & _ & _ & UU).
  rewrite ED, EB in CX. exists t. split; [exact G|]. intros b u. destruct (UU b u) as (x & y & EX & EY & L & _).
  assert (CY : cy = sqrt (D * D - base * D * (base * D))).
  { assert (W : cx * cx + cy * cy = D * D).
    { assert (V : sqrt (cx * cx + cy * cy) = D) by (rewrite <- ED; apply (Rmult_eq_reg_r (sin (deg_2_rad el))); [| lra]; rewrite A; field; lra).
      rewrite <- V. symmetry. apply sqrt_sqrt. nra. }
    rewrite <- (sqrt_square cy) by exact Y. f_equal. rewrite CX in W. lra. }
  eexists. split; [exact L|]. intros x0 y0 r. unfold in_square. cbn [vx vy].
  rewrite <- CY, <- CX, EX, EY, !(box_iff isd) by (try reflexivity; assumption). tauto.
Qed.

Lemma C111_common_centre_refuted_l : forall batch num_ut scenario a isd h el zmin zmax vmin vmax,
  resolved scenario a isd h el zmin zmax vmin vmax -> 0 < isd -> 0 < h -> 0 < el < 90 -> 2 * isd < centre_distance h el ->
  (forall dr t b u b' u' p p', proper_draws dr -> gen_single_sector_topology batch num_ut scenario a dr = Ok t ->
     t_at (u_loc (tp_uts t)) b u = Some p -> t_at (u_loc (tp_uts t)) b' u' = Some p' ->
     Rabs (vx p - vx p') <= isd /\ Rabs (vy p - vy p') <= isd) /\
  (exists dr dr' t t' p p', proper_draws dr /\ proper_draws dr' /\ gen_single_sector_topology batch num_ut scenario a dr = Ok t /\
     gen_single_sector_topology batch num_ut scenario a dr' = Ok t' /\
     t_at (u_loc (tp_uts t)) 0%nat 0%nat = Some p /\ t_at (u_loc (tp_uts t')) 0%nat 0%nat = Some p' /\ isd < Rabs (vx p - vx p')).
Proof.
  intros batch num_ut sc a isd h el zmin zmax vmin vmax RV I H E BIG. assert (E' : 0 < el <= 90) by lra.
  assert (J : - isd / 2 <= isd / 2) by lra.
  assert (ED : h * cos (deg_2_rad el) / sin (deg_2_rad el) = centre_distance h el) by (unfold centre_distance; rewrite deg_el; reflexivity).
  split.
  - intros dr t b u b' u' p p' PD G L L'.
    destruct (generated batch num_ut sc a isd h el zmin zmax vmin vmax dr RV H E' PD) as (t0 & cx & cy & G0 & _ & _ & _ & _ & _ & _ & _ & _ & _ & UU).
    rewrite G in G0. injection G0 as <-.
    destruct (UU b u) as (x & y & -> & -> & M & _). destruct (UU b' u') as (x' & y' & -> & -> & M' & _).
    rewrite L in M. rewrite L' in M'. injection M as ->. injection M' as ->. cbn [vx vy].
    pose proof (uniform_range _ _ _ J (pr_x dr PD b u)). pose proof (uniform_range _ _ _ J (pr_x dr PD b' u')).
    pose proof (uniform_range _ _ _ J (pr_y dr PD b u)). pose proof (uniform_range _ _ _ J (pr_y dr PD b' u')).
    split; apply Rabs_le; lra.
  - assert (P0 : proper_draws (const_draws 0)) by (apply const_proper; split; lra).
    assert (P1 : proper_draws (const_draws (1 / 2))) by (apply const_proper; split; lra).
    destruct (generated batch num_ut sc a isd h el zmin zmax vmin vmax _ RV H E' P0) as (t & cx & cy & G & _ & _ & _ & C & _ & _ & _ & _ & _ & UU).
    destruct (generated batch num_ut sc a isd h el zmin zmax vmin vmax _ RV H E' P1) as (t' & cx' & cy' & G' & _ & _ & _ & C' & _ & _ & _ & _ & _ & UU').
    destruct (UU 0%nat 0%nat) as (x & y & EX & EY & M & _). destruct (UU' 0%nat 0%nat) as (x' & y' & EX' & EY' & M' & _).
    exists (const_draws 0), (const_draws (1 / 2)), t, t'. do 2 eexists. split; [exact P0|]. split; [exact P1|]. split; [exact G|]. split; [exact G'|].
    split; [exact M|]. split; [exact M'|]. cbn [vx].
    rewrite ED in C, C'. cbn [const_draws gd_base gd_x] in *. unfold uniform in *. rewrite EX, EX', C, C'. 
    rewrite <- Rabs_Ropp. eapply Rlt_le_trans; [|apply Rle_abs]. lra.
Qed.

Lemma C111_direction_refuted_l : forall batch num_ut scenario a isd h el zmin zmax vmin vmax dr t,
  resolved scenario a isd h el zmin zmax vmin vmax -> 0 < isd -> 0 < h -> 0 < el < 90 -> proper_draws dr ->
  gen_single_sector_topology batch num_ut scenario a dr = Ok t ->
  exists cx cy, (forall b u p, t_at (u_loc (tp_uts t)) b u = Some p ->
     Rabs (vx p - cx) <= isd / 2 /\ Rabs (vy p - cy) <= isd / 2 /\ - isd / 2 <= vx p /\ - isd / 2 <= vy p) /\
    cx * cx + cy * cy = centre_distance h el * centre_distance h el /\
    (sqrt 3 * cx < cy <-> gd_base dr < 1 / 2).
Proof.
  intros batch num_ut sc a isd h el zmin zmax vmin vmax dr t RV I H E PD G.
  assert (DP := centre_distance_pos h el H E). set (D := centre_distance h el) in *. assert (J : - isd / 2 <= isd / 2) by lra.
  destruct (C111_uniform_l batch num_ut sc a isd h el zmin zmax vmin vmax (gd_base dr) RV I H ltac:(lra) (pr_base dr PD)) as (cx & cy & CX & CY & W & _).
  fold D in CX, W.
  destruct (generated batch num_ut sc a isd h el zmin zmax vmin vmax dr RV H ltac:(lra) PD) as (t0 & cx' & cy' & G0 & X & Y & A & C & _ & _ & _ & _ & _ & UU).
  rewrite G in G0. injection G0 as <-.
  assert (ED : h * cos (deg_2_rad el) / sin (deg_2_rad el) = D) by (unfold D, centre_distance; rewrite deg_el; reflexivity).
  rewrite ED in C. assert (cx' = cx) by congruence. clear C. subst cx'.
  assert (cy' = cy).
  { pose proof (sin_el el ltac:(lra)) as S. assert (V : sqrt (cx * cx + cy' * cy') = D) by (rewrite <- ED; apply (Rmult_eq_reg_r (sin (deg_2_rad el))); [| lra]; rewrite A; field; lra).
    assert (V2 : cx * cx + cy' * cy' = D * D) by (rewrite <- V; symmetry; apply sqrt_sqrt; nra).
    rewrite <- (sqrt_square cy), <- (sqrt_square cy') by assumption. f_equal. lra. }
  subst cy'. exists cx, cy. split; [|split; [exact W|]].
  - intros b u p L. destruct (UU b u) as (x & y & EX & EY & M & _). rewrite L in M. injection M as ->. cbn [vx vy].
    pose proof (uniform_range _ _ _ J (pr_x dr PD b u)). pose proof (uniform_range _ _ _ J (pr_y dr PD b u)).
    repeat split; try (apply Rabs_le); lra.
  - destruct (pr_base dr PD) as [B0 B1]. assert (S3 : sqrt 3 * sqrt 3 = 3) by (apply sqrt_sqrt; lra). assert (S0 := sqrt_pos 3).
    set (q := sqrt 3) in *. clearbody q. set (k := gd_base dr) in *. clearbody k. clearbody D. clear - B0 B1 S3 S0 CX CY W DP X.
    assert (K : cy * cy - q * cx * (q * cx) = D * D * (1 - 4 * (k * k))).
    { replace (q * cx * (q * cx)) with (q * q * (cx * cx)) by ring. rewrite S3. rewrite CX in *. nra. }
    assert (DD : 0 < D * D) by nra. assert (QC : 0 <= q * cx) by (apply Rmult_le_pos; assumption). split; intros L.
    + apply Rnot_le_lt. intros N. assert (0 < cy * cy - q * cx * (q * cx)) by nra. assert (1 - 4 * (k * k) <= 0) by nra. nra.
    + apply Rnot_le_lt. intros N. assert (cy * cy - q * cx * (q * cx) <= 0) by nra. assert (0 < 1 - 4 * (k * k)) by nra. nra.
Qed.

(* example input for C111: utils.py:709-747 with an elevation of 45 degrees *)
Definition steep_args : gen_args :=
  {| ga_isd := None; ga_height := None; ga_elev := Some 45; ga_min_h := None; ga_max_h := None;
     ga_indoor := None; ga_min_v := None; ga_max_v := None |}.

Lemma C111_example_l : exists dr, resolved "sur" steep_args 5000 600000 45 1.5 1.5 0 0 /\ centre_distance 600000 45 = 600000 /\
  2 * 5000 < centre_distance 600000 45 /\ proper_draws dr /\ gd_base dr = 1 / 4 /\ exists t, gen_single_sector_topology 3 7 "sur" steep_args dr = Ok t.
Proof.
  assert (RV : resolved "sur" steep_args 5000 600000 45 1.5 1.5 0 0).
  { constructor; try (right; split; reflexivity); [exists 5000; split; [constructor | right; split; reflexivity] | left; reflexivity]. }
  assert (CD : centre_distance 600000 45 = 600000).
  { unfold centre_distance. replace (45 * PI / 180) with (PI / 4) by field. rewrite <- sin_cos_PI4. field. pose proof (sin_PI4) as S. rewrite S.
    apply Rgt_not_eq. apply Rmult_lt_0_compat; [lra | apply Rinv_0_lt_compat, sqrt_lt_R0; lra]. }
  exists (const_draws (1 / 4)). split; [exact RV|]. split; [exact CD|]. split; [lra|].
  assert (PD : proper_draws (const_draws (1 / 4))) by (apply const_proper; split; lra). split; [exact PD|]. split; [reflexivity|].
  destruct (generated 3 7 "sur" steep_args _ _ _ _ _ _ _ _ RV ltac:(lra) ltac:(lra) PD) as (t & _ & _ & G & _). exists t. exact G.
Qed.

Lemma part_iff lo hi k r d w : lo < hi -> w = hi - lo ->
  (lo + k * w <= uniform lo hi d < lo + (k + r) * w <-> in_part k r d).
Proof.
  intros H ->. unfold in_part, uniform. assert (W : 0 < hi - lo) by lra. set (v := hi - lo) in *. clearbody v.
  split; intros [A B]; split; nra.
Qed.

Lemma C111_motion_l :
  forall batch num_ut scenario a isd h el zmin zmax vmin vmax dr,
  resolved scenario a isd h el zmin zmax vmin vmax -> 0 < h -> 0 < el <= 90 -> zmin < zmax -> 0 <= vmin < vmax -> proper_draws dr ->
  exists t, gen_single_sector_topology batch num_ut scenario a dr = Ok t /\
  forall b u, exists p speed heading, t_at (u_loc (tp_uts t)) b u = Some p /\
    t_at (u_vel (tp_uts t)) b u = V3 (speed * cos heading) (speed * sin heading) 0 /\
    0 <= speed /\ - PI <= heading < PI /\
    forall k r,
      (zmin + k * (zmax - zmin) <= vz p < zmin + (k + r) * (zmax - zmin) <-> in_part k r (gd_z dr b u)) /\
      (vmin + k * (vmax - vmin) <= speed < vmin + (k + r) * (vmax - vmin) <-> in_part k r (gd_speed dr b u)) /\
      (- PI + k * (2 * PI) <= heading < - PI + (k + r) * (2 * PI) <-> in_part k r (gd_angle dr b u)).
Proof.
  intros batch num_ut sc a isd h el zmin zmax vmin vmax dr RV H E Z V PD.
  destruct (generated batch num_ut sc a isd h el zmin zmax vmin vmax dr RV H E PD)
    as (t & cx & cy & G & _ & _ & _ & _ & _ & _ & _ & _ & _ & UU).
  exists t. split; [exact G|]. intros b u. destruct (UU b u) as (x & y & _ & _ & L & _ & VV & _).
  pose proof PI_RGT_0 as PP. pose proof (pr_speed dr PD b u) as DS. pose proof (pr_angle dr PD b u) as DA. unfold unit_draw in DS, DA.
  eexists. exists (uniform vmin vmax (gd_speed dr b u)), (uniform (- PI) PI (gd_angle dr b u)).
  split; [exact L|]. split; [exact VV|]. split; [unfold uniform; nra|]. split; [unfold uniform; split; nra|].
  intros k r. cbn [vz]. split; [apply part_iff; [exact Z | reflexivity]|].
  split; [apply part_iff; [lra | reflexivity] | apply part_iff; lra].
Qed.

(* example input for C111: utils.py:709-747 with heights of 1 to 20 m and speeds of up to 30 m/s *)
Definition moving_args : gen_args :=
  {| ga_isd := None; ga_height := None; ga_elev := Some 45; ga_min_h := Some 1; ga_max_h := Some 20;
     ga_indoor := None; ga_min_v := Some 0; ga_max_v := Some 30 |}.

Lemma C111_motion_example_l : exists dr, resolved "sur" moving_args 5000 600000 45 1 20 0 30 /\ 1 < 20 /\ 0 <= 0 < 30 /\ proper_draws dr.
Proof.
  exists (const_draws (1 / 4)). split; [| split; [lra | split; [lra | apply const_proper; split; lra]]].
  constructor; try (left; reflexivity); try (right; split; reflexivity).
  exists 5000; split; [constructor | right; split; reflexivity].
Qed.
