(* Ray generation.  Models /repo/OpenNTN/rays.py (RaysGenerator).
   Tensors are handled link by link: every function below is the body of a method for one
   (batch, BS, UT) index, and gen_rays assembles them.  Random draws are arguments: x uniform in
   [1e-6,1), standard normals, signs and the normals that are arg-sorted by the coupling step. *)
From Coq Require Import Reals String List Bool Arith ZArith.
From Verif Require Import M_Base M_Params M_Geometry M_Pathloss M_Scenario M_Lsp.
Import ListNotations.
Open Scope string_scope.
Open Scope list_scope.
Open Scope R_scope.

(* rays.py:103-113 *)
Definition ray_offsets : list R :=
  [ 0.0447; -0.0447; 0.1413; -0.1413; 0.2492; -0.2492; 0.3715; -0.3715; 0.5129; -0.5129;
    0.6797; -0.6797; 0.8844; -0.8844; 1.1481; -0.1481; 1.5195; -1.5195; 2.1551; -2.1551 ].

(* dense_urban_scenario.py:138-140, the siblings alike *)
Definition rays_per_cluster : nat := 20.

(* rays.py:224 *)
Definition b2r (b : bool) : R := if b then 1 else 0.      (* tf.cast of a boolean *)

(* ---- cluster mask, rays.py:185-255 ---- *)
(* concat(zeros(n), ones(max - n)) at position c < max *)
(* rays.py:218-221 *)
Definition mask_row (n c : nat) : R := if Nat.ltb c n then 0 else 1.

(* num_clusters_o2i = num_clusters_nlos - num_clusters_nlos = 0, rays.py:205 *)
Definition cluster_mask (n_los n_nlos : nat) (indoor los : bool) (c : nat) : R :=
  0 + b2r indoor * mask_row (n_nlos - n_nlos) c
    + b2r los * mask_row n_los c
    + b2r (negb los && negb indoor) * mask_row n_nlos c.

(* system_level_scenario.py:365-385 *)
Definition n_clusters (ls : lspstat) (los : bool) : nat := Z.to_nat (lp_numClusters (ls_col ls los)).
(* system_level_scenario.py:377-385 *)
Definition num_clusters_max (ls : lspstat) : nat := Nat.max (n_clusters ls true) (n_clusters ls false).

(* rays.py:185-255 *)
Definition compute_clusters_mask (st : state) : res (grid (nat -> R)) :=
  match s_lsp st, s_los st, s_in st with
  | Some ls, Some los, Some ind => Ok (fun b s u =>
      cluster_mask (n_clusters ls true) (n_clusters ls false) (t_at ind b u) (los b s u))
  | _, _, _ => Err (AttributeError "los")
  end.

(* ---- reductions over the cluster axis ---- *)
(* rays.py:308 *)
Definition reduce_min (l : list R) : R := match l with [] => 0 | x :: t => list_min x t end.
(* rays.py:456 *)
Definition reduce_max (l : list R) : R := match l with [] => 0 | x :: t => list_max x t end.

(* ---- delays, rays.py:257-322 ---- *)
(* rays.py:313-317 *)
Definition delay_scaling (k : R) : R :=
  let kdb := 10 * log10 k in
  0.7705 - 0.0433 * kdb + 0.0002 * sq kdb + 0.000017 * kdb ^ 3.

(* rays.py:296-310: n clusters, rTau, delay spread, mask and uniform draws of the link *)
Definition unscaled_delays (n : nat) (rtau ds : R) (mask x : nat -> R) : list R :=
  let raw := map (fun c => - rtau * ds * ln (x c) * (1 - mask c) + mask c) (seq 0 n) in
  rsort (map (fun t => t - reduce_min raw) raw).

(* rays.py:319-320 *)
Definition cluster_delays (los : bool) (k : R) (unscaled : list R) : list R :=
  if los then map (fun t => t / delay_scaling k) unscaled else unscaled.

(* ---- powers, rays.py:324-390 ---- *)
(* rays.py:369-375; z standard normal, zeta the cluster shadowing std in dB *)
Definition power_unnormalized (rtau ds zeta : R) (mask z : nat -> R) (unscaled : list R) (c : nat) : R :=
  exp (- nth c unscaled 0 * (rtau - 1) / (rtau * ds)) * pow10 (- (zeta * z c) / 10) * (1 - mask c).

(* rays.py:378-379; None: 0/0, which TensorFlow evaluates to NaN *)
Definition normalize (l : list R) : option (list R) :=
  if Req_EM_T (Rsum l) 0 then None else Some (map (fun p => p / Rsum l) l).

(* rays.py:324-379 *)
Definition cluster_powers (n : nat) (rtau ds zeta : R) (mask z : nat -> R) (unscaled : list R)
  : option (list R) :=
  normalize (map (power_unnormalized rtau ds zeta mask z unscaled) (seq 0 n)).

(* rays.py:382-388 *)
Definition powers_for_angles (los : bool) (k : R) (powers : list R) : list R :=
  let s := 1 / (k + 1) in
  let p1los := k * s in
  if los then
    match powers with [] => [] | p :: t => (s * p + p1los) :: map (fun q => s * q) t end
  else powers.

(* ---- angles ---- *)
(* rays.py:456-457, rays.py:619-620: clip(p / max p, 1e-6, 1) *)
Definition rel_power (powers : list R) (c : nat) : R :=
  Rmin (Rmax (nth c powers 0 / reduce_max powers) (1 / 10 ^ 6)) 1.

(* rays.py:464-465 *)
Definition sgn (b : bool) : R := 2 * b2r b - 1.

(* rays.py:477 *)
Definition offset (r : nat) : R := nth r ray_offsets 0.

(* rays.py:446-453 *)
Definition c_phi (los : bool) (k cphi_nlos : R) : R :=
  let kdb := 10 * log10 k in
  if los then cphi_nlos * (1.1035 - 0.028 * kdb - 0.002 * sq kdb + 0.0001 * kdb ^ 3)
  else cphi_nlos.

(* rays.py:458-459 *)
Definition azimuth_prime (spread cphi : R) (powers : list R) (c : nat) : R :=
  2 * spread / 1.4 * (sqrt (- ln (rel_power powers c)) / cphi).

(* rays.py:462-474; sign shared by all UTs, z standard normal *)
Definition azimuth_center (los : bool) (spread cphi los_angle : R) (powers : list R)
    (sign : nat -> bool) (z : nat -> R) (c : nat) : R :=
  let comp c := sgn (sign c) * azimuth_prime spread cphi powers c + spread / 7 * z c in
  comp c + los_angle - (if los then comp 0%nat else 0).

(* rays.py:485-488 *)
Definition wrap_180 (a : R) : R :=
  let w := wrap_angle_0_360 a in if Rltb 180 w then w - 360 else w.

(* rays.py:392-490 for ray r of cluster c *)
Definition azimuth_angle (los : bool) (spread cas cphi los_angle : R) (powers : list R)
    (sign : nat -> bool) (z : nat -> R) (c r : nat) : R :=
  wrap_180 (azimuth_center los spread cphi los_angle powers sign z c + cas * offset r).

(* rays.py:611-616; los_ut is "LoS and not indoor" *)
Definition c_theta (los_ut : bool) (k ctheta_nlos : R) : R :=
  let kdb := 10 * log10 k in
  if los_ut then ctheta_nlos * (1.3086 + 0.0339 * kdb - 0.0077 * sq kdb + 0.0002 * kdb ^ 3)
  else ctheta_nlos.

(* rays.py:621 *)
Definition zenith_prime (spread ctheta : R) (powers : list R) (c : nat) : R :=
  - spread * ln (rel_power powers c) / ctheta.

(* the argument angle_type, rays.py:544-546 *)
Inductive zenith_type := ZOA | ZOD.

(* rays.py:624-647 *)
Definition zenith_center (ty : zenith_type) (los indoor : bool) (spread ctheta los_angle zod_offset : R)
    (powers : list R) (sign : nat -> bool) (z : nat -> R) (c : nat) : R :=
  let los_ut := los && negb indoor in
  let nlos_ut := negb los && negb indoor in
  let comp c := sgn (sign c) * zenith_prime spread ctheta powers c + spread / 7 * z c in
  let los_additional := - (comp 0%nat - los_angle) in
  let additional :=
    match ty with
    | ZOD => if los_ut then los_additional else los_angle + zod_offset
    | ZOA => if indoor then 90 else if nlos_ut then los_angle
             else if los_ut then los_additional else 0
    end in
  comp c + additional.

(* rays.py:661-664 *)
Definition fold_180 (a : R) : R :=
  let w := wrap_angle_0_360 a in if Rltb 180 w then 360 - w else w.

(* rays.py:544-666 *)
Definition zenith_angle (ty : zenith_type) (los indoor : bool) (spread cas ctheta los_angle zod_offset : R)
    (powers : list R) (sign : nat -> bool) (z : nat -> R) (c r : nat) : R :=
  fold_180 (zenith_center ty los indoor spread ctheta los_angle zod_offset powers sign z c + cas * offset r).

(* ---- random coupling, rays.py:720-794 ---- *)
(* rn r: the normals of the cluster, shape [b, BS, 1, cluster, ray] (tiled over the UTs) *)
(* rays.py:743-750 *)
Definition shuffle (srt : list R -> list nat) (rn : nat -> R) (angles : nat -> R) (r : nat) : R :=
  angles (nth r (srt (map rn (seq 0 rays_per_cluster))) 0%nat).

(* ---- XPR, rays.py:796-836 ---- *)
Definition xpr (mu sigma z : R) : R := pow10 ((mu + sigma * z) / 10).

(* ---- __call__, rays.py:119-164 ---- *)
Record rays := {
  r_delays : list R; r_powers : list R;
  r_aoa : nat -> nat -> R; r_aod : nat -> nat -> R; r_zoa : nat -> nat -> R; r_zod : nat -> nat -> R;
  r_xpr : nat -> nat -> R }.

(* rays.py:623-630, rays.py:743-746 *)
Record angle_draws := {
  ad_sign : nat -> nat -> nat -> bool;           (* [b, BS, cluster] *)
  ad_comp : nat -> nat -> nat -> nat -> R;       (* [b, BS, UT, cluster] *)
  ad_mix : nat -> nat -> nat -> nat -> R }.      (* [b, BS, cluster, ray] *)

(* the random tensors of rays.py:119-164 *)
Record ray_draws := {
  rd_x : nat -> nat -> nat -> nat -> R; rd_shadow : nat -> nat -> nat -> nat -> R;
  rd_aoa : angle_draws; rd_aod : angle_draws; rd_zoa : angle_draws; rd_zod : angle_draws;
  rd_xpr : nat -> nat -> nat -> nat -> nat -> R }.

(* rays.py:596 *)
Definition ext_pow10 (e : ext) : R := match e with NegInf => 0 | Fin m => pow10 m end.

(* "Spread is 0 for satellite cases", rays.py:434-435 and rays.py:599-600 *)
Definition satellite_height (bs : tens vec3) : bool := Rleb 160000 (vz (t_at bs 0%nat 0%nat)).

(* one link; None: the cluster powers are NaN (0/0) *)
(* rays.py:119-164 *)
Definition link_rays (srt : list R -> list nat) (n : nat) (los indoor sat : bool) (lp : lparams)
    (mu_zsd : ext) (zod_offset : R) (g : geo) (b s u : nat) (mask : nat -> R) (x : lsp) (d : ray_draws)
  : option rays :=
  let un := unscaled_delays n (lp_rTau lp) (l_ds x) mask (rd_x d b s u) in
  let delays := cluster_delays los (l_k x) un in
  match cluster_powers n (lp_rTau lp) (l_ds x) (lp_zeta lp) mask (rd_shadow d b s u) un with
  | None => None
  | Some powers =>
      let pa := powers_for_angles los (l_k x) powers in
      let cphi := c_phi los (l_k x) (lp_CPhi lp) in
      let cth := c_theta (los && negb indoor) (l_k x) (lp_CTheta lp) in
      let asd := if sat then 0 else l_asd x in
      let zsd := if sat then 0 else l_zsd x in
      let aoa c := azimuth_angle los (l_asa x) (lp_cASA lp) cphi (g_aoa g b s u) pa
                     (ad_sign (rd_aoa d) b s) (ad_comp (rd_aoa d) b s u) c in
      let aod c := azimuth_angle los asd (lp_cASD lp) cphi (g_aod g b s u) pa
                     (ad_sign (rd_aod d) b s) (ad_comp (rd_aod d) b s u) c in
      let zoa c := zenith_angle ZOA los indoor (l_zsa x) (lp_cZSA lp) cth (g_zoa g b s u) zod_offset pa
                     (ad_sign (rd_zoa d) b s) (ad_comp (rd_zoa d) b s u) c in
      let zod c := zenith_angle ZOD los indoor zsd (3 / 8 * ext_pow10 mu_zsd) cth (g_zod g b s u)
                     zod_offset pa (ad_sign (rd_zod d) b s) (ad_comp (rd_zod d) b s u) c in
      Some {| r_delays := delays; r_powers := powers;
              r_aoa := fun c r => deg_2_rad (shuffle srt (ad_mix (rd_aoa d) b s c) (aoa c) r);
              r_aod := fun c r => deg_2_rad (shuffle srt (ad_mix (rd_aod d) b s c) (aod c) r);
              r_zoa := fun c r => deg_2_rad (shuffle srt (ad_mix (rd_zoa d) b s c) (zoa c) r);
              r_zod := fun c r => deg_2_rad (shuffle srt (ad_mix (rd_zod d) b s c) (zod c) r);
              r_xpr := fun c r => xpr (lp_muXPR lp) (lp_sigmaXPR lp) (rd_xpr d b s u c r) |}
  end.

(* rays.py:119-164 *)
Definition gen_rays (srt : list R -> list nat) (st : state) (mask : grid (nat -> R)) (lsps : grid lsp)
    (d : ray_draws) : res (grid (option rays)) :=
  match s_lsp st, s_los st, s_geo st, s_in st, s_bs_loc st with
  | Some ls, Some los, Some g, Some ind, Some bs => Ok (fun b s u =>
      link_rays srt (num_clusters_max ls) (los b s u) (t_at ind b u) (satellite_height bs)
        (ls_col ls (los b s u)) (ls_mean ls b s u 6%nat) (ls_zod_offset ls b s u) g b s u
        (mask b s u) (lsps b s u) d)
  | _, _, _, _, _ => Err (AttributeError "los")
  end.
