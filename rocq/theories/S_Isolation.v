(* Specification: two topologies of which one example each agrees in its first UTs. *)
From Coq Require Import Reals String List Bool Arith.
From Verif Require Import M_Base M_Geometry M_Scenario M_Rays M_Channel S_Channel.
Open Scope R_scope.

(* node i of example b of one tensor is node i of example b' of the other, for the first m nodes *)
Definition same_nodes {A} (m b b' : nat) (x y : option (tens A)) : Prop :=
  exists v w, x = Some v /\ y = Some w /\ (b < t_batch v)%nat /\ (b' < t_batch w)%nat /\ (m <= t_num v)%nat /\ (m <= t_num w)%nat /\
    forall i, (i < m)%nat -> t_at v b i = t_at w b' i.

(* example b of the topology st and example b' of the topology st' have the same satellite and the same first
   m UTs.  The altitude of the satellite of the first example of either batch, which enters every example
   (see C15), is the same too. *)
Record same_example (m b b' : nat) (st st' : state) : Prop := {
  se_ut_loc : same_nodes m b b' (s_ut_loc st) (s_ut_loc st');
  se_ut_in : same_nodes m b b' (s_in st) (s_in st');
  se_bs_loc : same_nodes 1 b b' (s_bs_loc st) (s_bs_loc st');
  se_altitude : forall v w, s_bs_loc st = Some v -> s_bs_loc st' = Some w -> vz (t_at v 0%nat 0%nat) = vz (t_at w 0%nat 0%nat);
  se_ut_ori : forall v w u, s_ut_ori st = Some v -> s_ut_ori st' = Some w -> (u < m)%nat -> t_at v b u = t_at w b' u;
  se_ut_vel : forall v w u, s_ut_vel st = Some v -> s_ut_vel st' = Some w -> (u < m)%nat -> t_at v b u = t_at w b' u;
  se_bs_ori : forall v w, s_bs_ori st = Some v -> s_bs_ori st' = Some w -> t_at v b 0%nat = t_at w b' 0%nat;
  se_los : s_req_los st = s_req_los st' }.

(* the same random numbers are drawn for these links *)
Record same_topo_draws (m b b' : nat) (d d' : topo_draws) : Prop := {
  td_los : forall u, (u < m)%nat -> dr_los d b 0%nat u = dr_los d' b' 0%nat u;
  td_z_los : forall u, (u < m)%nat -> dr_z_los d b 0%nat u = dr_z_los d' b' 0%nat u;
  td_z_nlos : forall u, (u < m)%nat -> dr_z_nlos d b 0%nat u = dr_z_nlos d' b' 0%nat u }.
Definition same_lsp_draws (m b b' : nat) (z z' : nat -> nat -> nat -> nat -> R) : Prop :=
  forall u j, (u < m)%nat -> z b 0%nat u j = z' b' 0%nat u j.
Record same_angle_draws (m b b' : nat) (d d' : angle_draws) : Prop := {
  an_sign : forall c, ad_sign d b 0%nat c = ad_sign d' b' 0%nat c;
  an_comp : forall u c, (u < m)%nat -> ad_comp d b 0%nat u c = ad_comp d' b' 0%nat u c;
  an_mix : forall c r, ad_mix d b 0%nat c r = ad_mix d' b' 0%nat c r }.
Record same_call_draws (dir : string) (m b b' : nat) (d d' : call_draws) : Prop := {
  cs_x : forall u c, (u < m)%nat -> rd_x (cd_rays d) b 0%nat u c = rd_x (cd_rays d') b' 0%nat u c;
  cs_shadow : forall u c, (u < m)%nat -> rd_shadow (cd_rays d) b 0%nat u c = rd_shadow (cd_rays d') b' 0%nat u c;
  cs_aoa : same_angle_draws m b b' (rd_aoa (cd_rays d)) (rd_aoa (cd_rays d'));
  cs_aod : same_angle_draws m b b' (rd_aod (cd_rays d)) (rd_aod (cd_rays d'));
  cs_zoa : same_angle_draws m b b' (rd_zoa (cd_rays d)) (rd_zoa (cd_rays d'));
  cs_zod : same_angle_draws m b b' (rd_zod (cd_rays d)) (rd_zod (cd_rays d'));
  cs_xpr : forall u c r, (u < m)%nat -> rd_xpr (cd_rays d) b 0%nat u c r = rd_xpr (cd_rays d') b' 0%nat u c r;
  cs_dir : cd_dir d b = cd_dir d' b';
  cs_phase : forall u c r k, (u < m)%nat ->
    (if String.eqb dir "uplink" then cd_phase d b u 0%nat else cd_phase d b 0%nat u) c r k =
    (if String.eqb dir "uplink" then cd_phase d' b' u 0%nat else cd_phase d' b' 0%nat u) c r k }.

(* ---- example b of a batch taken alone, with its first m UTs only ---- *)
Definition alone {A} (m b : nat) (x : tens A) : tens A := T 1 m (fun _ i => t_at x b i).
Definition full_args (ut bs uo bo vel : tens vec3) (ind : tens bool) (los : option bool) : topo_args :=
  {| a_ut_loc := Some ut; a_bs_loc := Some bs; a_ut_ori := Some uo; a_bs_ori := Some bo; a_ut_vel := Some vel; a_in := Some ind;
     a_los := los; a_weather := no_weather; a_doppler := None |}.
(* with the draws of that example *)
Definition topo_draws_of (b : nat) (d : topo_draws) : topo_draws :=
  {| dr_indoor := fun _ => dr_indoor d b; dr_los := fun _ => dr_los d b; dr_z_los := fun _ => dr_z_los d b; dr_z_nlos := fun _ => dr_z_nlos d b |}.
Definition angle_draws_of (b : nat) (d : angle_draws) : angle_draws :=
  {| ad_sign := fun _ => ad_sign d b; ad_comp := fun _ => ad_comp d b; ad_mix := fun _ => ad_mix d b |}.
Definition ray_draws_of (b : nat) (d : ray_draws) : ray_draws :=
  {| rd_x := fun _ => rd_x d b; rd_shadow := fun _ => rd_shadow d b; rd_aoa := angle_draws_of b (rd_aoa d); rd_aod := angle_draws_of b (rd_aod d);
     rd_zoa := angle_draws_of b (rd_zoa d); rd_zod := angle_draws_of b (rd_zod d); rd_xpr := fun _ => rd_xpr d b |}.
Definition call_draws_of (b : nat) (d : call_draws) : call_draws :=
  {| cd_lsp := fun _ => cd_lsp d b; cd_rays := ray_draws_of b (cd_rays d); cd_dir := fun _ => cd_dir d b; cd_phase := fun _ => cd_phase d b |}.
