(* Specification vocabulary for rotations, rays and paths. *)
From Coq Require Import Reals List Bool Arith.
From Verif Require Import M_Base M_Cplx M_Rays M_Antenna M_Coeff.
Import ListNotations.
Open Scope R_scope.

(* ---- rigid rotations ---- *)
Definition cross (a b : vec3) : vec3 :=
  V3 (vy a * vz b - vz a * vy b) (vz a * vx b - vx a * vz b) (vx a * vy b - vy a * vx b).

(* linear, length- and orientation-preserving, invertible *)
Record is_rotation (f : vec3 -> vec3) : Prop := {
  ir_add : forall u v, f (vadd u v) = vadd (f u) (f v);
  ir_scale : forall k u, f (vscale k u) = vscale k (f u);
  ir_dot : forall u v, vdot (f u) (f v) = vdot u v;
  ir_cross : forall u v, f (cross u v) = cross (f u) (f v);
  ir_onto : exists g, (forall v, f (g v) = v) /\ (forall v, g (f v) = v) }.

(* rotations about z (bearing), y (downtilt) and x (slant), TR 38.901 7.1-2 *)
Definition rot_z (a : R) (v : vec3) := V3 (cos a * vx v - sin a * vy v) (sin a * vx v + cos a * vy v) (vz v).
Definition rot_y (b : R) (v : vec3) := V3 (cos b * vx v + sin b * vz v) (vy v) (- sin b * vx v + cos b * vz v).
Definition rot_x (c : R) (v : vec3) := V3 (vx v) (cos c * vy v - sin c * vz v) (sin c * vy v + cos c * vz v).

(* spherical unit vectors *)
Definition rho_hat (theta phi : R) := V3 (sin theta * cos phi) (sin theta * sin phi) (cos theta).
Definition theta_hat (theta phi : R) := V3 (cos theta * cos phi) (cos theta * sin phi) (- sin theta).
Definition phi_hat (theta phi : R) := V3 (- sin phi) (cos phi) 0.
(* the transversal field vector with components f *)
Definition field_vector (f : R * R) (theta phi : R) : vec3 :=
  vadd (vscale (fst f) (theta_hat theta phi)) (vscale (snd f) (phi_hat theta phi)).

(* ---- paths of a link ---- *)
(* a path collects some rays of one cluster and is delayed by offset * cDS *)
Record path := Path { pt_cluster : nat; pt_rays : list nat; pt_offset : R }.

(* TR 38.901 table 7.5-5 (zero-based rays) *)
Definition documented_subclusters : list (list nat * R) :=
  [ ([0;1;2;3;4;5;6;7;18;19]%nat, 0); ([8;9;10;11;16;17]%nat, 1.28); ([12;13;14;15]%nat, 2.56) ].

Definition split_cluster (c : nat) : list path :=
  map (fun s => Path c (fst s) (snd s)) documented_subclusters.
Definition whole_cluster (c : nat) : path := Path c (seq 0 20) 0.
Definition rays_of (p : path) : list (nat * nat) := map (pair (pt_cluster p)) (pt_rays p).

(* c1 and c2 are two strongest of the clusters *)
Definition two_strongest (powers : list R) (c1 c2 : nat) : Prop :=
  (c1 < length powers)%nat /\ (c2 < length powers)%nat /\ c1 <> c2 /\
  forall c, (c < length powers)%nat -> c <> c1 -> c <> c2 ->
    nth c powers 0 <= nth c1 powers 0 /\ nth c powers 0 <= nth c2 powers 0.

(* k-fold complex sums over rays *)
Definition total (n m : nat) (h : nat -> nat -> cplx) : cplx :=
  csum (map (fun cr => h (fst cr) (snd cr)) (list_prod (seq 0 n) (seq 0 m))).

(* the frequency f of a rotating phasor *)
Definition rotates_at (f : R) (h0 : cplx) (t : R) (h : cplx) : Prop := h = cmul h0 (cexpi (2 * PI * f * t)).

(* exchanging the roles of the two link ends in a 4-phase draw: the two cross-polar phases swap *)
Definition swap_phases (ph : nat -> nat -> nat -> R) (c r k : nat) : R :=
  ph c r (match k with 1 => 2 | 2 => 1 | _ => k end)%nat.

(* the same link with transmitter and receiver exchanged *)
Definition swap_gen (g : cgen) : cgen := {| cg_fc := cg_fc g; cg_tx := cg_rx g; cg_rx := cg_tx g; cg_sub := cg_sub g |}.
Definition swap_topo (T : ltopo) : ltopo :=
  {| lt_vel := lt_vel T; lt_moving_rx := negb (lt_moving_rx T); lt_aoa := lt_aod T; lt_aod := lt_aoa T; lt_zoa := lt_zod T;
     lt_zod := lt_zoa T; lt_los := lt_los T; lt_d3d := lt_d3d T; lt_tx_ori := lt_rx_ori T; lt_rx_ori := lt_tx_ori T;
     lt_bs_height := lt_bs_height T; lt_doppler := lt_doppler T; lt_sat_speed := lt_sat_speed T |}.
Definition swap_rays (y : rays) : rays :=
  {| r_delays := r_delays y; r_powers := r_powers y; r_aoa := r_aod y; r_aod := r_aoa y; r_zoa := r_zod y; r_zod := r_zoa y;
     r_xpr := r_xpr y |}.
