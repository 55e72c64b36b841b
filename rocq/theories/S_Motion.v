(* Specification: a topology turned about a vertical axis and shifted horizontally. *)
From Coq Require Import Reals String List Bool Arith.
From Verif Require Import M_Base M_Geometry M_Scenario S_Isolation.
Open Scope R_scope.

(* turned by w (radians, counter-clockwise seen from above), then shifted by (sx, sy) *)
Definition turned (w : R) (v : vec3) : vec3 :=
  V3 (cos w * vx v - sin w * vy v) (sin w * vx v + cos w * vy v) (vz v).
Definition moved (w sx sy : R) (p : vec3) : vec3 :=
  V3 (vx (turned w p) + sx) (vy (turned w p) + sy) (vz p).

(* equal up to whole turns *)
Definition same_heading (a b : R) : Prop := cos a = cos b /\ sin a = sin b.
(* the bearing grows by w; downtilt and slant stay *)
Definition reoriented (w : R) (o o' : vec3) : Prop :=
  same_heading (vx o') (vx o + w) /\ vy o' = vy o /\ vz o' = vz o.

Definition related_nodes {A} (P : A -> A -> Prop) (m b b' : nat) (x y : option (tens A)) : Prop :=
  exists v w, x = Some v /\ y = Some w /\ (b < t_batch v)%nat /\ (b' < t_batch w)%nat /\ (m <= t_num v)%nat /\ (m <= t_num w)%nat /\
    forall i, (i < m)%nat -> P (t_at v b i) (t_at w b' i).

(* example b' of st' is example b of st (its satellite and its first m UTs) moved as a whole, velocities aside *)
Record moved_still (w sx sy : R) (m b b' : nat) (st st' : state) : Prop := {
  me_ut_loc : related_nodes (fun p p' => p' = moved w sx sy p) m b b' (s_ut_loc st) (s_ut_loc st');
  me_ut_in : same_nodes m b b' (s_in st) (s_in st');
  me_bs_loc : related_nodes (fun p p' => p' = moved w sx sy p) 1 b b' (s_bs_loc st) (s_bs_loc st');
  me_altitude : forall v x, s_bs_loc st = Some v -> s_bs_loc st' = Some x -> vz (t_at v 0%nat 0%nat) = vz (t_at x 0%nat 0%nat);
  me_ut_ori : forall v x u, s_ut_ori st = Some v -> s_ut_ori st' = Some x -> (u < m)%nat -> reoriented w (t_at v b u) (t_at x b' u);
  me_bs_ori : forall v x, s_bs_ori st = Some v -> s_bs_ori st' = Some x -> reoriented w (t_at v b 0%nat) (t_at x b' 0%nat);
  me_los : s_req_los st = s_req_los st' }.
(* with the velocities *)
Record moved_example (w sx sy : R) (m b b' : nat) (st st' : state) : Prop := {
  me_still : moved_still w sx sy m b b' st st';
  me_ut_vel : forall v x u, s_ut_vel st = Some v -> s_ut_vel st' = Some x -> (u < m)%nat -> t_at x b' u = turned w (t_at v b u) }.

(* the UT is not straight below its satellite *)
Definition off_nadir (st : state) (b u : nat) : Prop :=
  forall ut bs, s_ut_loc st = Some ut -> s_bs_loc st = Some bs ->
    vx (t_at ut b u) <> vx (t_at bs b 0%nat) \/ vy (t_at ut b u) <> vy (t_at bs b 0%nat).

(* a batch moved as a whole *)
Definition moved_nodes (w sx sy : R) (x : tens vec3) : tens vec3 := T (t_batch x) (t_num x) (fun b i => moved w sx sy (t_at x b i)).
Definition turned_nodes (w : R) (x : tens vec3) : tens vec3 := T (t_batch x) (t_num x) (fun b i => turned w (t_at x b i)).
Definition turned_bearings (w : R) (x : tens vec3) : tens vec3 :=
  T (t_batch x) (t_num x) (fun b i => V3 (vx (t_at x b i) + w) (vy (t_at x b i)) (vz (t_at x b i))).
