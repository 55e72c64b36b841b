From Coq Require Import Reals String List Bool Arith Lia Lra ZArith.
From Verif Require Import M_Base L_Base M_Params M_Geometry M_Pathloss L_Pathloss L_Trig.
Import ListNotations.
Open Scope R_scope.

(* ---- slant range ---- *)
Lemma slant_root elev h : 0 < elev <= 90 -> 0 < h ->
  0 < slant_range elev h /\
  (earth_radius + h) ^ 2 =
    earth_radius ^ 2 + (slant_range elev h) ^ 2
    + 2 * earth_radius * slant_range elev h * sin (deg_2_rad elev).
Proof.
  intros He Hh. assert (S := sin_elev_pos elev He). unfold slant_range.
  set (s := sin (deg_2_rad elev)) in *. set (r := earth_radius).
  assert (R : 0 < r) by (unfold r, earth_radius; lra).
  set (q := r ^ 2 * s ^ 2 + h ^ 2 + 2 * h * r).
  assert (Q : (r * s) * (r * s) < q) by (unfold q; nra).
  assert (Q0 : 0 <= q) by nra.
  assert (E := sqrt_sqrt q Q0).
  assert (L : r * s < sqrt q).
  { rewrite <- (sqrt_square (r * s)) by nra. apply sqrt_lt_1; nra. }
  split; [lra|].
  replace (sqrt q - r * s) with (sqrt q - r * s) by ring.
  set (z := sqrt q) in *. assert (z * z = q) by exact E. unfold q in H. nra.
Qed.

Lemma slant_unique elev h d : 0 < elev <= 90 -> 0 < h -> 0 < d ->
  (earth_radius + h) ^ 2 =
    earth_radius ^ 2 + d ^ 2 + 2 * earth_radius * d * sin (deg_2_rad elev) ->
  d = slant_range elev h.
Proof.
  intros He Hh Hd E. destruct (slant_root elev h He Hh) as [P F].
  assert (S := sin_elev_pos elev He).
  set (s := sin (deg_2_rad elev)) in *. set (d' := slant_range elev h) in *.
  assert (R : 0 < earth_radius) by (unfold earth_radius; lra).
  assert (Z : (d - d') * (d + d' + 2 * earth_radius * s) = 0) by (rewrite F in E; lra).
  apply Rmult_integral in Z. destruct Z as [Z | Z]; [lra|].
  exfalso. nra.
Qed.

Lemma slant_ge_h elev h : 0 < elev <= 90 -> 0 < h -> h <= slant_range elev h.
Proof.
  intros He Hh. destruct (slant_root elev h He Hh) as [P F].
  assert (S := sin_elev_pos elev He). set (s := sin (deg_2_rad elev)) in *.
  set (d := slant_range elev h) in *. assert (R : 0 < earth_radius) by (unfold earth_radius; lra).
  set (r := earth_radius) in *.
  destruct (Rle_lt_dec h d) as [L | L]; [exact L | exfalso].
  assert (d ^ 2 < h ^ 2) by nra. assert (2 * r * d * s <= 2 * r * d * 1).
  { apply Rmult_le_compat_l; nra. }
  nra.
Qed.

Lemma slant_zenith h : 0 < h -> slant_range 90 h = h.
Proof.
  intros Hh. symmetry. apply slant_unique; try lra.
  unfold deg_2_rad. replace (90 * (PI / 180)) with (PI / 2) by field. rewrite sin_PI2. ring.
Qed.

Lemma sin_elev_incr e1 e2 : 0 < e1 -> e1 < e2 <= 90 -> sin (deg_2_rad e1) < sin (deg_2_rad e2).
Proof.
  intros H1 H2. assert (P := PI_RGT_0).
  assert (A := deg_rad_range e1 ltac:(lra)). assert (B := deg_rad_range e2 ltac:(lra)).
  apply sin_increasing_1; try lra. unfold deg_2_rad. apply Rmult_lt_compat_r; lra.
Qed.

Lemma slant_decr_elev e1 e2 h : 0 < e1 -> e1 < e2 <= 90 -> 0 < h ->
  slant_range e2 h < slant_range e1 h.
Proof.
  intros H1 H2 Hh.
  destruct (slant_root e1 h ltac:(lra) Hh) as [P1 F1].
  destruct (slant_root e2 h ltac:(lra) Hh) as [P2 F2].
  assert (S := sin_elev_incr e1 e2 H1 H2).
  assert (S1 := sin_elev_pos e1 ltac:(lra)).
  set (s1 := sin (deg_2_rad e1)) in *. set (s2 := sin (deg_2_rad e2)) in *.
  set (d1 := slant_range e1 h) in *. set (d2 := slant_range e2 h) in *.
  assert (R : 0 < earth_radius) by (unfold earth_radius; lra). set (r := earth_radius) in *.
  destruct (Rlt_le_dec d2 d1) as [L | L]; [exact L | exfalso].
  assert (A : d1 ^ 2 + 2 * r * d1 * s1 = d2 ^ 2 + 2 * r * d2 * s2) by lra.
  assert (B : d1 * s1 < d2 * s2) by nra.
  assert (C : d1 ^ 2 <= d2 ^ 2) by nra. nra.
Qed.

Lemma slant_incr_h e h1 h2 : 0 < e <= 90 -> 0 < h1 -> h1 < h2 ->
  slant_range e h1 < slant_range e h2.
Proof.
  intros He H1 H2. unfold slant_range.
  assert (S := sin_elev_pos e He). set (s := sin (deg_2_rad e)) in *.
  assert (R : 0 < earth_radius) by (unfold earth_radius; lra). set (r := earth_radius) in *.
  apply Rplus_lt_compat_r. apply sqrt_lt_1; nra.
Qed.

(* ---- directions ---- *)
(* the unit vector of a (zenith, azimuth) pair given in degrees *)
Definition direction (zenith azimuth : R) : vec3 :=
  V3 (sin (deg_2_rad zenith) * cos (deg_2_rad azimuth))
     (sin (deg_2_rad zenith) * sin (deg_2_rad azimuth))
     (cos (deg_2_rad zenith)).

Lemma dist_2d_nonneg ut bs : 0 <= dist_2d ut bs.
Proof. apply sqrt_pos. Qed.

Lemma dist_2d_sq ut bs : dist_2d ut bs * dist_2d ut bs = sq (vx ut - vx bs) + sq (vy ut - vy bs).
Proof.
  unfold dist_2d. apply sqrt_sqrt. unfold sq.
  assert (A := Rle_0_sqr (vx ut - vx bs)). assert (B := Rle_0_sqr (vy ut - vy bs)).
  unfold Rsqr in *. lra.
Qed.

Lemma norm_delta ut bs :
  vnorm (vsub ut bs) = sqrt ((vz ut - vz bs) * (vz ut - vz bs) + dist_2d ut bs * dist_2d ut bs).
Proof. unfold vnorm, vdot, vsub; cbn. rewrite dist_2d_sq. f_equal. unfold sq. ring. Qed.

Lemma azimuth_polar ut bs :
  dist_2d ut bs * cos (atan2 (vy ut - vy bs) (vx ut - vx bs)) = vx ut - vx bs /\
  dist_2d ut bs * sin (atan2 (vy ut - vy bs) (vx ut - vx bs)) = vy ut - vy bs.
Proof.
  assert (H := atan2_polar (vy ut - vy bs) (vx ut - vx bs)).
  unfold dist_2d, sq. exact H.
Qed.

Lemma departure_direction ut bs :
  vscale (vnorm (vsub ut bs)) (direction (los_zod ut bs) (los_aod ut bs)) = vsub ut bs.
Proof.
  unfold direction, los_zod, los_aod, vscale; cbn [vx vy vz].
  rewrite !cos_wrap, !sin_wrap, norm_delta.
  destruct (atan2_polar (dist_2d ut bs) (vz ut - vz bs)) as [Z1 Z2].
  destruct (azimuth_polar ut bs) as [A1 A2].
  unfold vsub. f_equal.
  - rewrite <- Rmult_assoc, Z2. exact A1.
  - rewrite <- Rmult_assoc, Z2. exact A2.
  - exact Z1.
Qed.

(* what the arrival angles actually describe: the horizontal part is not reversed *)
Lemma arrival_direction ut bs :
  vscale (vnorm (vsub ut bs)) (direction (los_zoa ut bs) (los_aoa ut bs)) =
  V3 (vx ut - vx bs) (vy ut - vy bs) (- (vz ut - vz bs)).
Proof.
  unfold direction, los_zoa, los_aoa, vscale; cbn [vx vy vz].
  rewrite !cos_wrap, !sin_wrap, norm_delta.
  destruct (atan2_polar (dist_2d ut bs) (vz ut - vz bs)) as [Z1 Z2].
  destruct (azimuth_polar ut bs) as [A1 A2].
  set (a := atan2 (vy ut - vy bs) (vx ut - vx bs)) in *.
  set (z := atan2 (dist_2d ut bs) (vz ut - vz bs)) in *.
  set (n := sqrt _) in *.
  assert (Ez1 : sin (z - PI) = - sin z).
  { rewrite <- (sin_period_Z (z - PI) 1). replace (z - PI + 2 * 1 * PI) with (z + PI) by ring.
    apply neg_sin. }
  assert (Ez2 : cos (z - PI) = - cos z).
  { rewrite <- (cos_period_Z (z - PI) 1). replace (z - PI + 2 * 1 * PI) with (z + PI) by ring.
    apply neg_cos. }
  rewrite Ez1, Ez2, neg_sin, neg_cos. f_equal.
  - transitivity (n * sin z * cos a); [ring | rewrite Z2; exact A1].
  - transitivity (n * sin z * sin a); [ring | rewrite Z2; exact A2].
  - transitivity (- (n * cos z)); [ring | rewrite Z1; reflexivity].
Qed.

Lemma los_angles_range ut bs :
  0 <= los_aod ut bs < 360 /\ 0 <= los_aoa ut bs < 360 /\
  0 <= los_zod ut bs < 360 /\ 0 <= los_zoa ut bs < 360.
Proof. repeat split; apply wrap_range. Qed.

(* the zenith of departure even lies in [0,180] *)
Lemma los_zod_180 ut bs : 0 <= los_zod ut bs <= 180.
Proof.
  unfold los_zod. assert (P := PI_RGT_0).
  destruct (atan2_nonneg (dist_2d ut bs) (vz ut - vz bs) (dist_2d_nonneg ut bs)) as [A B].
  assert (R : 0 <= rad_2_deg (atan2 (dist_2d ut bs) (vz ut - vz bs)) <= 180).
  { unfold rad_2_deg. assert (0 < 180 / PI) by (apply Rdiv_lt_0_compat; lra). split.
    - apply Rmult_le_pos; lra.
    - apply Rle_trans with (PI * (180 / PI)); [apply Rmult_le_compat_r; lra | right; field; lra]. }
  unfold wrap_angle_0_360. rewrite fmod_id; lra.
Qed.
