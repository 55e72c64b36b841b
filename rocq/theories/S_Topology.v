(* Small specification vocabulary for topology histories (C06-C16). *)
From Coq Require Import Reals String List Bool Arith.
From Verif Require Import M_Base M_Params M_Geometry M_Pathloss M_Scenario.
Import ListNotations.
Open Scope list_scope.
Open Scope R_scope.

(* what a caller observes of a history: the calls made and their outcomes *)
Definition event := (topo_op * res bool)%type.

Fixpoint trace (sc : scenario) (st : state) (ops : list topo_op) : list event :=
  match ops with
  | [] => []
  | o :: ops' => (o, snd (set_topology sc st (fst o) (snd o))) :: trace sc (step sc st o) ops'
  end.

Definition successful (r : res bool) : Prop := exists b, r = Ok b.
(* rejected because a required value is missing *)
Definition rejected (r : res bool) : Prop := exists m, r = Err (AssertionError m).

(* v is the value of one argument in the most recent call whose outcome counts *)
Definition is_latest {A} (counts : res bool -> Prop) (get : topo_args -> option A)
    (h : list event) (v : A) : Prop :=
  exists pre o r post, h = pre ++ (o, r) :: post /\ counts r /\ get (fst o) = Some v /\
    forall o' r', In (o', r') post -> counts r' -> get (fst o') = None.

(* an argument that no accepted call of the history, nor the present one, specifies *)
Definition never_given {A} (get : topo_args -> option A) (h : list event) (a : topo_args) : Prop :=
  get a = None /\ forall o r, In (o, r) h -> ~ rejected r -> get (fst o) = None.

Definition something_missing (h : list event) (a : topo_args) : Prop :=
  never_given a_ut_loc h a \/ never_given a_bs_loc h a \/ never_given a_in h a \/
  never_given a_ut_ori h a \/ never_given a_bs_ori h a \/ never_given a_ut_vel h a.

(* the most recent call that returned True, i.e. recomputed the derived quantities *)
Definition latest_update (h : list event) (o : topo_op) : Prop :=
  exists pre post, h = pre ++ (o, Ok true) :: post /\
    forall o' r', In (o', r') post -> r' <> Ok true.

(* all atmospheric parameters given explicitly *)
Definition explicit_weather (w : weather) : weather_args :=
  {| wa_latitude := Some (w_latitude w); wa_lwc := Some (w_lwc w); wa_rain := Some (w_rain w);
     wa_pressure := Some (w_pressure w); wa_temperature := Some (w_temperature w);
     wa_vapor := Some (w_vapor w); wa_humidity := Some (w_humidity w);
     wa_diameter := Some (w_diameter w); wa_efficiency := Some (w_efficiency w) |}.

(* one call specifying everything that is currently in force *)
Definition current_args (st : state) (w : weather) : topo_args :=
  {| a_ut_loc := s_ut_loc st; a_bs_loc := s_bs_loc st; a_ut_ori := s_ut_ori st;
     a_bs_ori := s_bs_ori st; a_ut_vel := s_ut_vel st; a_in := s_in st;
     a_los := s_req_los st; a_weather := explicit_weather w; a_doppler := Some (s_doppler st) |}.

(* the derived quantities a channel call reads *)
Definition same_derived (s1 s2 : state) : Prop :=
  s_d2d s1 = s_d2d s2 /\ s_geo s1 = s_geo s2 /\ s_ind s1 = s_ind s2 /\ s_los s1 = s_los s2 /\
  s_lsp s1 = s_lsp s2 /\ s_pl s1 = s_pl s2.

Definition same_inputs (s1 s2 : state) : Prop :=
  s_ut_loc s1 = s_ut_loc s2 /\ s_bs_loc s1 = s_bs_loc s2 /\ s_ut_ori s1 = s_ut_ori s2 /\
  s_bs_ori s1 = s_bs_ori s2 /\ s_ut_vel s1 = s_ut_vel s2 /\ s_in s1 = s_in s2 /\
  s_req_los s1 = s_req_los s2 /\ s_doppler s1 = s_doppler s2.

(* law of cosines in the Earth-centre triangle: UT on the sphere of radius R, satellite at
   height h, seen under elevation elev at distance d *)
Definition spherical_triangle (elev h d : R) : Prop :=
  0 < d /\ (6371000 + h) ^ 2 = 6371000 ^ 2 + d ^ 2 + 2 * 6371000 * d * sin (elev * (PI / 180)).

(* the unit vector with zenith angle z and azimuth a, both in degrees *)
Definition unit_dir (z a : R) : vec3 :=
  V3 (sin (z * (PI / 180)) * cos (a * (PI / 180)))
     (sin (z * (PI / 180)) * sin (a * (PI / 180)))
     (cos (z * (PI / 180))).

(* v points along the unit vector n *)
Definition points_along (n v : vec3) : Prop := exists k, 0 <= k /\ v = vscale k n.

(* an object obtained from the public constructor *)
Definition constructed (sc : scenario) : Prop :=
  exists e fc ut bs dir elev pathloss shadow doppler,
    scenario_init e fc ut bs dir elev pathloss shadow doppler = Ok sc.

(* each atmospheric parameter of the call, or its documented default *)
Definition given_or_default (a : topo_args) (w : weather) : Prop :=
  let pick (x : option R) (d v : R) := v = match x with Some y => y | None => d end in
  pick (wa_latitude (a_weather a)) 47 (w_latitude w) /\
  pick (wa_lwc (a_weather a)) 0.41 (w_lwc w) /\
  pick (wa_rain (a_weather a)) 40 (w_rain w) /\
  pick (wa_pressure (a_weather a)) 1020 (w_pressure w) /\
  pick (wa_temperature (a_weather a)) 273 (w_temperature w) /\
  pick (wa_vapor (a_weather a)) 7.5 (w_vapor w) /\
  pick (wa_humidity (a_weather a)) 50 (w_humidity w) /\
  pick (wa_diameter (a_weather a)) 3.6 (w_diameter w) /\
  pick (wa_efficiency (a_weather a)) 0.5 (w_efficiency w).
